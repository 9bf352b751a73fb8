(** * Proofs: what goes wrong with lookups; copies; edits; setting text. *)
From Coq Require Import Sorting.Permutation.
From Verif Require Import Base M_Ints M_Unsync M_Charset M_Payload M_Frame M_TextId M_Tag23 M_Tag22 M_Tag24 M_Lookup M_Copy
  S_Charset S_Tag S_Lookup L_Charset L_Frame L_Tag23b L_Tag22 L_Tag24 L_Lookup.

(** ** Inserting or erasing before the end *)
Lemma ids_after_put o i c st x : In x (l_ids st) -> In x (l_ids (put_at o i c st)).
Proof. intros I. cbn [put_at add_lookups l_ids bump set_frames]. apply in_or_app. left. exact I. Qed.

Lemma insert_refuted_l v ic st i a st' last_id f :
  history v ic st -> wf_arg a -> insert v i a st = Ok st' ->
  nthN (map f_id (frames_of st)) (size_l st - 1) = Some last_id ->
  nthN (frames_of st') (size_l st - 1) = Some f -> f_id f <> last_id ->
  exists c, get_frame c st' last_id = Ok f.
Proof.
  intros H W E L F NE. pose proof (history_reg v ic st H) as R.
  unfold insert in E. destruct (i <=? size_l st); [|discriminate E]. apply Ok_inj in E. subst st'.
  assert (I : In (last_id, size_l st - 1) (l_ids st)).
  { eapply Permutation_in; [apply Permutation_sym; apply (ids_full v st R)|]. apply index_In0.
    unfold frames_of, nthN in L. rewrite map_map, nth_error_map in L. unfold nthN.
    destruct (nth_error (l_frames st) (N.to_nat (size_l st - 1))) as [(b, d)|]; [|discriminate L].
    cbn in L. injection L as <-. exists b, d. split; reflexivity. }
  apply (ids_after_put (over_of a) i (frame_of v a)) in I. apply values_In in I. destruct (pick_reach _ _ I) as (c & P).
  exists c. unfold get_frame. rewrite P.
  unfold frames_of, nthN in F. rewrite nth_error_map in F. unfold nthN.
  destruct (nth_error _ _) as [(b, d)|]; [|discriminate F]. cbn in F. injection F as <-. reflexivity.
Qed.

Lemma remove_keeps_ids v id i st st' x : remove_lookups v id i st = Ok st' -> In x (l_ids st) -> snd x <> i -> In x (l_ids st').
Proof.
  intros H I NE. unfold remove_lookups in H. apply bind_ok in H as (st1 & H1 & H).
  assert (E : l_ids st1 = l_ids st).
  { destruct (bytes_eqb id (comm_id v)); [destruct (remove_first (has_idx i) (l_comms st)); [|discriminate H1]; apply Ok_inj in H1; subst; reflexivity|].
    destruct (bytes_eqb id (count_id v)); [destruct (remove_first (has_idx i) (l_counts st)); [|discriminate H1]; apply Ok_inj in H1; subst; reflexivity|].
    destruct (bytes_eqb id (popm_id v)); [destruct (remove_first (has_idx i) (l_popms st)); [|discriminate H1]; apply Ok_inj in H1; subst; reflexivity|].
    destruct (text_id id); [|apply Ok_inj in H1; subst; reflexivity].
    destruct (nthN (l_frames st) i) as [(a, c)|]; [|discriminate H1].
    destruct (remove_first (is_entry id a) (l_texts st)); [apply Ok_inj in H1; subst; reflexivity|destruct v; discriminate H1]. }
  rewrite E in H. destruct (remove_first (is_entry id i) (l_ids st)) as [l|] eqn:RF; [|discriminate H].
  apply Ok_inj in H. subst st'. cbn [l_ids]. destruct (remove_first_perm _ _ _ RF) as (y & PY & Q).
  apply is_entry_eq in PY. subst y. eapply Permutation_in in I; [|exact Q]. destruct I as [<-|I]; [|exact I].
  cbn in NE. congruence.
Qed.

Lemma erase_refuted_l v ic st i st' last_id : history v ic st -> i + 1 < size_l st -> erase v i st = Ok st' ->
  nthN (map f_id (frames_of st)) (size_l st - 1) = Some last_id ->
  exists c, get_frame c st' last_id = Throw OutOfRange.
Proof.
  intros H LT E L. pose proof (history_reg v ic st H) as R.
  assert (I : In (last_id, size_l st - 1) (l_ids st)).
  { eapply Permutation_in; [apply Permutation_sym; apply (ids_full v st R)|]. apply index_In0.
    unfold frames_of, nthN in L. rewrite map_map, nth_error_map in L. unfold nthN.
    destruct (nth_error (l_frames st) (N.to_nat (size_l st - 1))) as [(b, d)|]; [|discriminate L].
    cbn in L. injection L as <-. exists b, d. split; reflexivity. }
  unfold erase in E. destruct (nthN (l_frames st) i) as [(a, d)|] eqn:X; [|discriminate E].
  apply bind_ok in E as (st1 & RL & E). apply Ok_inj in E. subst st'.
  destruct (dereg v none st i a d st1 R X RL) as (_ & F1 & _).
  apply (remove_keeps_ids v _ _ _ _ _ RL) in I; [|cbn; lia].
  apply values_In in I. destruct (pick_reach _ _ I) as (c & P). exists c. unfold get_frame.
  cbn [set_frames l_ids l_frames]. rewrite P, F1.
  assert (NN : nthN (remove_at i (l_frames st)) (size_l st - 1) = None).
  { apply nth_error_None. unfold remove_at. rewrite app_length, firstn_length, skipn_length. unfold size_l in *. lia. }
  rewrite NN. reflexivity.
Qed.

(** ** Frames that no table knows *)
Lemma erase_text_refuted_l v ic st i f : history v ic st -> nthN (frames_of st) i = Some f ->
  text_id (f_id f) = true -> (forall t, f_body f <> BText t) ->
  erase v i st = match v with V22 => Throw LogicError | _ => UB BadIterator end.
Proof.
  intros H X T NB. pose proof (history_reg v ic st H) as R.
  unfold frames_of, nthN in X. rewrite nth_error_map in X. unfold erase, nthN.
  destruct (nth_error (l_frames st) (N.to_nat i)) as [(a, c)|] eqn:E; [|discriminate X]. cbn in X. injection X as <-.
  unfold remove_lookups. fold (id_of c) in T. destruct (special_not_text v) as (T1 & T2 & T3).
  destruct (bytes_eqb_spec (id_of c) (comm_id v)) as [Q|_]; [congruence|].
  destruct (bytes_eqb_spec (id_of c) (count_id v)) as [Q|_]; [congruence|].
  destruct (bytes_eqb_spec (id_of c) (popm_id v)) as [Q|_]; [congruence|].
  rewrite T. unfold nthN. rewrite E.
  rewrite remove_first_none; [destruct v; reflexivity|].
  intros (k, b) I. destruct (is_entry (id_of c) a (k, b)) eqn:IE; [|reflexivity]. apply is_entry_eq in IE. injection IE as -> ->.
  destruct (r_texts v none st R _ _ I) as (_ & j & d & t & X' & _ & _ & W).
  pose proof (addr_unique _ _ _ _ _ _ (r_nodup v none st R) E X') as EQ. subst j.
  unfold nthN in X'. rewrite E in X'. injection X' as <-. destruct (NB t W).
Qed.

Lemma add_comment_refuted_l ic st fl c st' : history V23 ic st -> add_comment V23 fl c st = Ok st' ->
  get_comments st' = get_comments st /\
  length (with_id (B "COMM") (frames_of st')) = S (length (with_id (B "COMM") (frames_of st))) /\
  erase V23 (size_l st) st' = UB BadIterator.
Proof.
  intros H E. pose proof (history_reg V23 ic st H) as R. unfold add_comment, add_made in E. apply Ok_inj in E.
  set (cf := new_frame (mkFrame (comm_id V23) fl (BComm c))) in *.
  assert (FR : l_frames st' = l_frames st ++ [(l_next st, cf)]).
  { subst st'. cbn [put_at add_lookups bump set_frames l_frames]. unfold size_l. apply insert_at_end. }
  assert (CM : l_comms st' = l_comms st) by (subst st'; reflexivity).
  split; [|split].
  - unfold get_comments. rewrite CM.
    assert (G : forall l, (forall a i, In (a, i) l -> In (a, i) (l_comms st)) -> get_all st' l = get_all st l).
    { induction l as [|(a, i) r IH]; intros I; [reflexivity|]. cbn [get_all].
      destruct (r_comms V23 none st R) as (_ & RC). destruct (RC a i (I a i (or_introl eq_refl))) as (d & X & _).
      rewrite (at_addr_spec st i a d (r_nodup V23 none st R) X).
      assert (R' : reg V23 none st') by (subst st'; apply reg_put_end; [exact R|exact Logic.I]).
      rewrite (at_addr_spec st' i a d); [|apply R'|].
      - rewrite IH by (intros; apply I; right; assumption). reflexivity.
      - rewrite FR. rewrite nthN_app1; [exact X|]. eapply nthN_lt. exact X. }
    apply G. auto.
  - unfold frames_of. rewrite FR, map_app. unfold with_id. rewrite filter_app, app_length. cbn. lia.
  - unfold erase. rewrite FR. unfold size_l. rewrite nthN_app_at. unfold remove_lookups, id_of. cbn [cf new_frame c_frame f_id].
    rewrite beqb_refl. rewrite CM. rewrite remove_first_none; [reflexivity|].
    intros (a, i) I. unfold has_idx. cbn. apply N.eqb_neq. intros ->.
    destruct (r_comms V23 none st R) as (_ & RC). destruct (RC a _ I) as (d & X & _). apply nthN_lt in X. lia.
Qed.

(** ** The play counter of ID3v2.4 *)
Lemma play_count_refuted_l ic st : history V24 ic st -> with_id (B "CNT") (frames_of st) = [] ->
  has_play_count V24 st = 0 /\ play_count V24 st = Throw LogicError.
Proof.
  intros H W. destruct (ids_agree_l V24 st (history_reg V24 ic st H) (B "CNT")) as (E & _). rewrite W in E.
  assert (P : has_play_count V24 st = 0) by exact E. split; [exact P|]. unfold play_count. rewrite P. reflexivity.
Qed.

(** ** Copies *)
Fixpoint number_from (i : N) (l : list cframe) : list (N * cframe) :=
  match l with [] => [] | c :: r => (i, c) :: number_from (i + 1) r end.
Fixpoint off_by_one (i : N) (l : list cframe) : list (bytes * N) :=
  match l with [] => [] | c :: r => (id_of c, i + 1) :: off_by_one (i + 1) r end.

Lemma copy_lookups_eq v (l : list (N * cframe)) : forall acc, N.of_nat (length (l_frames acc)) = l_next acc ->
  fold_left (fun acc x => copy_step v acc (snd x)) l acc =
  mkL (l_frames acc ++ number_from (l_next acc) (map (fun x => clone v (snd x)) l))
      (l_next acc + N.of_nat (length l))
      (l_ids acc ++ off_by_one (l_next acc) (map snd l)) (l_texts acc) (l_comms acc) (l_counts acc) (l_popms acc).
Proof.
  induction l as [|(a, c) r IH]; intros acc L; cbn [fold_left map length number_from off_by_one snd].
  - rewrite !app_nil_r, N.add_0_r. destruct acc; reflexivity.
  - rewrite IH.
    + cbn [copy_step add_lookups bump set_frames l_frames l_next l_ids l_texts l_comms l_counts l_popms].
      unfold size_l. rewrite L. rewrite <- !app_assoc. cbn [app]. f_equal. lia.
    + cbn [copy_step add_lookups bump set_frames l_frames l_next]. rewrite app_length. cbn [length]. lia.
Qed.

Lemma copy_spec v st : copy_lookups v st =
  mkL (number_from 0 (map (fun x => clone v (snd x)) (l_frames st))) (size_l st)
      (off_by_one 0 (map snd (l_frames st))) [] [] [] [].
Proof. unfold copy_lookups. rewrite copy_lookups_eq by reflexivity. reflexivity. Qed.

Lemma number_snd l : forall i, map snd (number_from i l) = l.
Proof. induction l as [|c r IH]; intros i; [reflexivity|]. cbn. rewrite IH. reflexivity. Qed.

Lemma number_len l : forall i, length (number_from i l) = length l.
Proof. induction l as [|c r IH]; intros i; [reflexivity|]. cbn. rewrite IH. reflexivity. Qed.

Lemma frame_clone v c : c_frame (clone v c) = c_frame c.
Proof. destruct v; reflexivity. Qed.

Lemma copy_frames_l v st : frames_of (copy_lookups v st) = frames_of st.
Proof.
  rewrite copy_spec. unfold frames_of. cbn [l_frames].
  rewrite <- (map_map snd c_frame), number_snd, map_map. apply map_ext. intros (a, c). apply frame_clone.
Qed.

Lemma off_In l : forall i k c, nth_error l k = Some c -> In (id_of c, i + N.of_nat k + 1) (off_by_one i l).
Proof.
  induction l as [|d r IH]; intros i k c H; [destruct k; discriminate H|]. destruct k as [|k]; cbn [nth_error off_by_one] in *.
  - injection H as <-. left. f_equal. lia.
  - right. specialize (IH (i + 1) k c H). replace (i + N.of_nat (S k) + 1) with (i + 1 + N.of_nat k + 1) by lia. exact IH.
Qed.

Lemma copy_refuted_l v st f : nthN (frames_of st) (size_l st - 1) = Some f ->
  (exists c, get_frame c (copy_lookups v st) (f_id f) = Throw OutOfRange) /\
  (forall c id, find_text c (copy_lookups v st) id = Throw UnknownFrame) /\
  get_comments (copy_lookups v st) = Ok [] /\ get_counts (copy_lookups v st) = Ok [] /\ get_popms (copy_lookups v st) = Ok [].
Proof.
  intros H. rewrite copy_spec. split; [|repeat split].
  - unfold frames_of, nthN in H. rewrite nth_error_map in H.
    destruct (nth_error (l_frames st) (N.to_nat (size_l st - 1))) as [(a, c)|] eqn:E; [|discriminate H]. cbn in H. injection H as <-.
    assert (LT : (N.to_nat (size_l st - 1) < length (l_frames st))%nat) by (apply nth_error_Some; congruence).
    assert (I : In (id_of c, size_l st) (off_by_one 0 (map snd (l_frames st)))).
    { replace (size_l st) with (0 + N.of_nat (N.to_nat (size_l st - 1)) + 1) by (unfold size_l in *; lia).
      apply off_In. rewrite nth_error_map, E. reflexivity. }
    apply (proj2 (values_In _ _ _)) in I. destruct (pick_reach _ _ I) as (n & P). exists n. unfold get_frame.
    cbn [l_ids l_frames]. fold (id_of c). rewrite P.
    assert (NN : nthN (number_from 0 (map (fun x => clone v (snd x)) (l_frames st))) (size_l st) = None).
    { apply nth_error_None. rewrite number_len, map_length. unfold size_l. lia. }
    rewrite NN. reflexivity.
  - intros c id. unfold find_text, pick, nthN. cbn [l_texts values filter map length].
    destruct (N.to_nat _); reflexivity.
Qed.

(** ** Written bytes: caches that are clean are all that counts *)
Definition outB {T} (x : outcome (bytes * T)) : outcome bytes := let* p := x in Ok (fst p).

Definition same_cache (c d : cframe) : Prop :=
  c_dirty c = c_dirty d /\ c_plain c = c_plain d /\ c_unsync c = c_unsync d /\ c_syncs c = c_syncs d.

Lemma edit_same c b : same_cache (edit_body b c) c.
Proof. repeat split. Qed.
Lemma same_refl c : same_cache c c.
Proof. repeat split. Qed.

Lemma edit_nth_same b l : forall i, Forall2 same_cache (edit_nth i b l) l.
Proof.
  induction l as [|c r IH]; intros i; [destruct i; constructor|]. destruct i as [|i]; cbn [edit_nth].
  - constructor; [apply edit_same|]. clear. induction r; constructor; [apply same_refl|assumption].
  - constructor; [apply same_refl|apply IH].
Qed.

Lemma same_trans a b c : same_cache a b -> same_cache b c -> same_cache a c.
Proof. unfold same_cache. intros (A1 & A2 & A3 & A4) (B1 & B2 & B3 & B4). repeat split; congruence. Qed.

Lemma Forall2_trans {A} (R : A -> A -> Prop) : (forall a b c, R a b -> R b c -> R a c) ->
  forall l m n, Forall2 R l m -> Forall2 R m n -> Forall2 R l n.
Proof.
  intros T l m n H. revert n. induction H as [|x y l m XY LM IH]; intros n K; inversion K; subst; constructor; eauto.
Qed.

Lemma edits_same es : forall l, Forall2 same_cache (edits es l) l.
Proof.
  induction es as [|(i, b) es IH]; intros l.
  - cbn. induction l; constructor; [apply same_refl|assumption].
  - unfold edits. cbn [fold_left fst snd]. eapply Forall2_trans; [apply same_trans|apply IH|apply edit_nth_same].
Qed.

Lemma same_clean l m : Forall2 same_cache l m -> Forall clean m -> Forall clean l.
Proof.
  induction 1 as [|x y l m (A & _) LM IH]; intros C; [constructor|]. apply Forall_cons_iff in C. destruct C as (C1 & C2).
  constructor; [unfold clean in *; congruence|apply IH; exact C2].
Qed.

Lemma same_cached u l m : Forall2 same_cache l m -> map (cached u) l = map (cached u) m.
Proof. induction 1 as [|x y l m (A & P & Q & _) LM IH]; [reflexivity|]. cbn [map]. rewrite IH. unfold cached. rewrite P, Q. reflexivity. Qed.
Lemma same_cached22 u l m : Forall2 same_cache l m -> map (cached22 u) l = map (cached22 u) m.
Proof. induction 1 as [|x y l m (A & P & Q & _) LM IH]; [reflexivity|]. cbn [map]. rewrite IH. unfold cached22. rewrite P, Q. reflexivity. Qed.
Lemma same_crc z l m : Forall2 same_cache l m -> forall n,
  fold_left (fun n c => z_crc z n (c_plain c)) l n = fold_left (fun n c => z_crc z n (c_plain c)) m n.
Proof. induction 1 as [|x y l m (A & P & _) LM IH]; intros n; [reflexivity|]. cbn [fold_left]. rewrite P. apply IH. Qed.

Lemma lost22_l t u n t1 es u' : size22 t u = Ok (n, t1) ->
  outB (write22 (with_frames22 (edits es (t2_frames t1)) t1) u') = outB (write22 t1 u').
Proof.
  intros S1. destruct (size22_inv t u n t1 S1) as (_ & _ & _ & (_ & CL & _) & _).
  pose proof (edits_same es (t2_frames t1)) as SA. pose proof (same_clean _ _ SA CL) as CE.
  unfold outB, write22, size22, with_frames22. cbn [t2_frames t2_unsync t2_comp t2_pad].
  rewrite !map_refresh_clean by assumption. cbn [bind t2_frames t2_unsync t2_comp t2_pad].
  rewrite (same_cached22 u' _ _ SA).
  change (flags22 (mkTag22 (t2_unsync t1) (t2_comp t1) (t2_pad t1) (edits es (t2_frames t1)))) with (flags22 t1).
  destruct (tag_header 2 0 _ _); try reflexivity. cbn [bind].
  rewrite !map_refresh_clean by assumption. cbn [bind fst t2_frames t2_unsync t2_comp t2_pad]. rewrite (same_cached22 u' _ _ SA). reflexivity.
Qed.

Lemma lost23_l z t u n t1 es u' : size23 z t u = Ok (n, t1) ->
  outB (write23 z (with_frames23 (edits es (t3_frames t1)) t1) u') = outB (write23 z t1 u').
Proof.
  intros S1. destruct (size23_inv z t u n t1 S1) as (_ & _ & _ & (_ & CL & _) & _ & _ & PX).
  pose proof (edits_same es (t3_frames t1)) as SA. pose proof (same_clean _ _ SA CL) as CE.
  assert (PE : prep_ext z (with_frames23 (edits es (t3_frames t1)) t1) = Ok (with_frames23 (edits es (t3_frames t1)) t1)).
  { revert PX. unfold prep_ext, with_frames23. cbn [t3_ext t3_frames t3_unsync t3_exp t3_pad].
    destruct (t3_ext t1) as [x|] eqn:EX; [|reflexivity].
    destruct (is_some (x_crc x)).
    - rewrite !map_refresh_clean by assumption. cbn [bind]. unfold ext_crc. rewrite (same_crc z _ _ SA).
      intros P. apply Ok_inj in P. rewrite <- P in EX at 1. cbn [t3_ext] in EX. injection EX as EX. rewrite EX. reflexivity.
    - intros P. apply Ok_inj in P. rewrite <- P in EX at 1. cbn [t3_ext] in EX. injection EX as EX. rewrite EX. reflexivity. }
  unfold outB, write23, size23. rewrite PX, PE. cbn [bind].
  unfold with_frames23. cbn [t3_frames t3_unsync t3_exp t3_ext t3_pad].
  rewrite !refresh_all_clean by assumption. cbn [bind t3_frames t3_unsync t3_exp t3_ext t3_pad].
  rewrite (same_cached u' _ _ SA).
  change (flags23 (mkTag23 (t3_unsync t1) (t3_exp t1) (t3_ext t1) (t3_pad t1) (edits es (t3_frames t1)))) with (flags23 t1).
  destruct (tag_header 3 0 _ _); try reflexivity. cbn [bind].
  change (mkTag23 (t3_unsync t1) (t3_exp t1) (t3_ext t1) (t3_pad t1) (edits es (t3_frames t1)))
    with (with_frames23 (edits es (t3_frames t1)) t1). rewrite PE.
  replace (mkTag23 (t3_unsync t1) (t3_exp t1) (t3_ext t1) (t3_pad t1) (t3_frames t1)) with t1 by (destruct t1; reflexivity).
  rewrite PX. cbn [bind with_frames23 t3_frames t3_unsync t3_exp t3_ext t3_pad].
  rewrite !map_refresh_clean by assumption. cbn [bind fst]. rewrite (same_cached u' _ _ SA). reflexivity.
Qed.

Lemma lost24_l z t u n t1 es u' : size24 z t u = Ok (n, t1) ->
  outB (write24 z (with_frames24 (edits es (t4_frames t1)) t1) u') = outB (write24 z t1 u').
Proof.
  intros S1. destruct (size24_inv z t u n t1 S1) as (_ & _ & _ & _ & _ & (_ & CL & _) & _).
  pose proof (edits_same es (t4_frames t1)) as SA. pose proof (same_clean _ _ SA CL) as CE.
  unfold outB, write24, size24, with_frames24. cbn [t4_frames t4_unsync t4_exp t4_foot t4_ext t4_pad].
  rewrite !refresh_all_clean by assumption. cbn [bind t4_frames t4_unsync t4_exp t4_foot t4_ext t4_pad].
  rewrite (same_cached u' _ _ SA).
  change (flags24 (mkTag24 (t4_unsync t1) (t4_exp t1) (t4_foot t1) (t4_ext t1) (t4_pad t1) (edits es (t4_frames t1)))) with (flags24 t1).
  destruct (tag_header 4 0 _ _); try reflexivity. cbn [bind].
  destruct (match t4_ext t1 with Some x => ext_wire24 x | None => Ok [] end); try reflexivity. cbn [bind].
  rewrite !map_refresh_clean by assumption. cbn [bind].
  destruct (if t4_foot t1 then _ else _); try reflexivity. cbn [bind fst]. rewrite (same_cached u' _ _ SA). reflexivity.
Qed.

(** ** Frames never serialized before *)
Definition renew (l : list cframe) : list cframe := map (fun c => new_frame (c_frame c)) l.

Lemma refresh_new wire b c : c_dirty c = true -> refresh wire b (new_frame (c_frame c)) = refresh wire b c.
Proof. intros D. unfold refresh. rewrite D. reflexivity. Qed.

Lemma map_refresh_new wire l : Forall (fun c => c_dirty c = true) l -> map_refresh wire (renew l) = map_refresh wire l.
Proof. unfold renew. induction 1 as [|c r D _ IH]; [reflexivity|]. cbn [map map_refresh]. rewrite refresh_new by exact D. rewrite IH. reflexivity. Qed.

Lemma refresh_all_new wire b l : Forall (fun c => c_dirty c = true) l -> refresh_all wire b (renew l) = refresh_all wire b l.
Proof.
  unfold renew. induction 1 as [|c r D _ IH]; [reflexivity|]. destruct r as [|d r]; cbn [map] in *.
  - cbn [refresh_all]. rewrite refresh_new by exact D. reflexivity.
  - rewrite !refresh_all_cons, refresh_new by exact D. rewrite IH. reflexivity.
Qed.

Lemma edits_dirty es : forall l, Forall (fun c => c_dirty c = true) l -> Forall (fun c => c_dirty c = true) (edits es l).
Proof.
  intros l D. pose proof (edits_same es l) as SA. induction SA as [|x y l m (A & _) LM IH]; [constructor|].
  apply Forall_cons_iff in D. destruct D as (D1 & D2). constructor; [congruence|apply IH; exact D2].
Qed.

Lemma new22_l t u : Forall (fun c => c_dirty c = true) (t2_frames t) ->
  write22 (with_frames22 (renew (t2_frames t)) t) u = write22 t u.
Proof.
  intros D. unfold write22, size22, with_frames22. cbn [t2_frames t2_unsync t2_comp t2_pad].
  rewrite map_refresh_new by exact D. destruct (map_refresh wire22 (t2_frames t)); reflexivity.
Qed.

Lemma new23_l z t u : Forall (fun c => c_dirty c = true) (t3_frames t) ->
  write23 z (with_frames23 (renew (t3_frames t)) t) u = write23 z t u.
Proof.
  intros D. unfold write23.
  replace (size23 z (with_frames23 (renew (t3_frames t)) t) u) with (size23 z t u); [reflexivity|].
  unfold size23, prep_ext, with_frames23. cbn [t3_frames t3_unsync t3_exp t3_ext t3_pad].
  destruct (t3_ext t) as [x|] eqn:EX.
  - destruct (is_some (x_crc x)).
    + rewrite map_refresh_new by exact D. reflexivity.
    + cbn [bind t3_frames t3_unsync t3_exp t3_ext t3_pad]. rewrite refresh_all_new by exact D. reflexivity.
  - cbn [bind t3_frames t3_unsync t3_exp t3_ext t3_pad]. rewrite refresh_all_new by exact D.
    rewrite EX. reflexivity.
Qed.

Lemma new24_l z t u : Forall (fun c => c_dirty c = true) (t4_frames t) ->
  write24 z (with_frames24 (renew (t4_frames t)) t) u = write24 z t u.
Proof.
  intros D. unfold write24.
  replace (size24 z (with_frames24 (renew (t4_frames t)) t) u) with (size24 z t u); [reflexivity|].
  unfold size24, with_frames24. cbn [t4_frames t4_unsync t4_exp t4_foot t4_ext t4_pad].
  rewrite refresh_all_new by exact D. reflexivity.
Qed.

(** ** What a copy writes *)
Lemma refresh_pl wire b c c' : coherent wire c -> refresh wire b c = Ok c' ->
  exists d, refresh wire b (new_frame (c_frame c)) = Ok d /\ c_plain d = c_plain c'.
Proof.
  intros CO H. unfold refresh in *. cbn [new_frame c_dirty c_frame].
  destruct (c_dirty c) eqn:D.
  - apply bind_ok in H as (ce & W & H). apply Ok_inj in H. subst c'. rewrite W. cbn [bind]. eexists. split; reflexivity.
  - apply Ok_inj in H. subst c'. destruct (CO D) as (W & _). rewrite W. cbn [bind]. eexists. split; reflexivity.
Qed.

Lemma map_refresh_pl wire l : Forall (coherent wire) l -> forall l', map_refresh wire l = Ok l' ->
  exists m, map_refresh wire (renew l) = Ok m /\ map c_plain m = map c_plain l'.
Proof.
  unfold renew. induction 1 as [|c r CO _ IH]; intros l' H; cbn [map map_refresh] in *.
  - apply Ok_inj in H. subst l'. exists []. auto.
  - apply bind_ok in H as (c' & HC & H). apply bind_ok in H as (r' & HR & H). apply Ok_inj in H. subst l'.
    destruct (refresh_pl wire false c c' CO HC) as (d & E & P). destruct (IH r' HR) as (m & EM & PM).
    rewrite E. cbn [bind]. rewrite EM. cbn [bind]. eexists. split; [reflexivity|]. cbn [map]. congruence.
Qed.

Lemma refresh_all_pl wire b l : Forall (coherent wire) l -> forall l', refresh_all wire b l = Ok l' ->
  exists m, refresh_all wire b (renew l) = Ok m /\ map c_plain m = map c_plain l'.
Proof.
  unfold renew. induction 1 as [|c r CO _ IH]; intros l' H.
  - apply Ok_inj in H. subst l'. exists []. auto.
  - destruct r as [|d r]; cbn [map] in *.
    + cbn [refresh_all] in *. apply bind_ok in H as (c' & HC & H). apply Ok_inj in H. subst l'.
      destruct (refresh_pl wire b c c' CO HC) as (e & E & P). rewrite E. cbn [bind]. eexists. split; [reflexivity|]. cbn [map]. congruence.
    + rewrite refresh_all_cons in *. apply bind_ok in H as (c' & HC & H). apply bind_ok in H as (r' & HR & H). apply Ok_inj in H. subst l'.
      destruct (refresh_pl wire false c c' CO HC) as (e & E & P). destruct (IH r' HR) as (m & EM & PM).
      rewrite E. cbn [bind]. rewrite EM. cbn [bind]. eexists. split; [reflexivity|]. cbn [map]. congruence.
Qed.

Lemma cached_plain l : map (cached false) l = map c_plain l.
Proof. reflexivity. Qed.

Lemma crc_plain z l : forall m, map c_plain l = map c_plain m -> forall n,
  fold_left (fun n c => z_crc z n (c_plain c)) l n = fold_left (fun n c => z_crc z n (c_plain c)) m n.
Proof.
  induction l as [|c r IH]; intros [|d m] H n; try discriminate H; [reflexivity|].
  injection H as H1 H2. cbn [fold_left]. rewrite H1. apply IH. exact H2.
Qed.

Lemma copy23_written_l z t b t' : Forall (coherent (wire23 z)) (t3_frames t) -> write23 z t false = Ok (b, t') ->
  exists t'', write23 z (copy23 (t3_unsync t) t) false = Ok (b, t'').
Proof.
  intros CO W. destruct (write23_inv z t false b t' W) as (n & h & SZ & HD & EB).
  assert (G : exists t'', size23 z (copy23 (t3_unsync t) t) false = Ok (n, t'') /\
     map c_plain (t3_frames t'') = map c_plain (t3_frames t') /\ t3_ext t'' = t3_ext t' /\ t3_pad t'' = t3_pad t').
  { unfold size23 in *. apply bind_ok in SZ as (t0 & P0 & SZ). apply bind_ok in SZ as (fs & RF & SZ). apply Ok_inj in SZ.
    injection SZ as EN ET. 
    assert (G0 : exists s0, prep_ext z (copy23 (t3_unsync t) t) = Ok s0 /\ t3_ext s0 = t3_ext t0 /\ t3_pad s0 = t3_pad t0 /\
       exists m, refresh_all (wire23 z) (t3_pad t0 =? 0) (t3_frames s0) = Ok m /\ map c_plain m = map c_plain fs).
    { unfold prep_ext in *. cbn [copy23 t3_ext t3_frames t3_unsync t3_exp t3_pad].
      change (map (clone V23) (t3_frames t)) with (renew (t3_frames t)).
      destruct (t3_ext t) as [x|] eqn:EX.
      - destruct (is_some (x_crc x)).
        + apply bind_ok in P0 as (gs & RG & P0). apply Ok_inj in P0. subst t0. cbn [t3_ext t3_frames t3_unsync t3_exp t3_pad] in *.
          destruct (map_refresh_pl _ _ CO gs RG) as (m & EM & PM). rewrite EM. cbn [bind]. eexists. split; [reflexivity|].
          cbn [t3_ext t3_frames t3_unsync t3_exp t3_pad]. split; [|split; [reflexivity|]].
          * unfold ext_crc. rewrite (crc_plain z m gs PM). reflexivity.
          * destruct (map_refresh_spec _ _ _ RG) as (_ & CG & _). destruct (map_refresh_spec _ _ _ EM) as (_ & CM & _).
            rewrite refresh_all_clean in * by assumption. apply Ok_inj in RF. subst fs. eexists. split; [reflexivity|exact PM].
        + apply Ok_inj in P0. subst t0. cbn [t3_ext t3_frames t3_unsync t3_exp t3_pad] in *. eexists. split; [reflexivity|].
          cbn [t3_ext t3_frames t3_unsync t3_exp t3_pad]. split; [reflexivity|]. split; [reflexivity|].
          apply refresh_all_pl; assumption.
      - apply Ok_inj in P0. subst t0. eexists. split; [reflexivity|]. cbn [copy23 t3_ext t3_frames t3_unsync t3_exp t3_pad].
        split; [reflexivity|]. split; [reflexivity|].
        change (map (clone V23) (t3_frames t)) with (renew (t3_frames t)). apply refresh_all_pl; assumption. }
    destruct G0 as (s0 & E0 & X0 & D0 & m & RM & PM). rewrite E0. cbn [bind]. rewrite D0, RM. cbn [bind].
    subst t'. exists (mkTag23 (t3_unsync s0) (t3_exp s0) (t3_ext s0) (t3_pad t0) m).
    cbn [t3_frames t3_ext t3_pad]. split; [|split; [exact PM|split; [exact X0|reflexivity]]].
    rewrite X0. rewrite <- EN. rewrite !cached_plain, PM. reflexivity. }
  destruct G as (t'' & S2 & PL & X & D). exists t''.
  rewrite (write23_of_size z _ false n t'' h S2).
  - rewrite EB, X, D, !cached_plain, PL. reflexivity.
  - exact HD.
Qed.

Lemma copy24_written_l z t b t' c : Forall (coherent (wire24 z)) (t4_frames t) -> write24 z t false = Ok (b, t') ->
  copy24 (t4_unsync t) t = Ok c -> exists t'', write24 z c false = Ok (b, t'').
Proof.
  intros CO W CP. unfold copy24 in CP. destruct (t4_ext t) as [x|] eqn:EX; [|discriminate CP]. apply Ok_inj in CP. subst c.
  change (map (clone V24) (t4_frames t)) with (renew (t4_frames t)).
  unfold write24, size24 in *. cbn [t4_unsync t4_exp t4_foot t4_ext t4_pad t4_frames].
  destruct (refresh_all (wire24 z) (t4_pad t =? 0) (t4_frames t)) as [fs| | |] eqn:RF; try discriminate W. cbn [bind] in W.
  destruct (refresh_all_pl _ _ _ CO fs RF) as (m & EM & PM). rewrite EM. cbn [bind t4_unsync t4_exp t4_foot t4_ext t4_pad t4_frames] in *.
  rewrite !cached_plain in *. rewrite PM. rewrite EX in W.
  replace (flags24 (mkTag24 (t4_unsync t) (t4_exp t) (t4_foot t) (Some x) (t4_pad t) (renew (t4_frames t)))) with (flags24 t)
    by (unfold flags24; cbn [t4_unsync t4_exp t4_foot t4_ext]; rewrite EX; reflexivity).
  apply bind_ok in W as (h & HH & W). rewrite HH. cbn [bind].
  apply bind_ok in W as (y & HY & W). rewrite HY. cbn [bind].
  destruct (refresh_all_spec _ _ _ _ RF) as (_ & C1 & _). destruct (refresh_all_spec _ _ _ _ EM) as (_ & C2 & _).
  rewrite map_refresh_clean in * by assumption. cbn [bind] in *.
  apply bind_ok in W as (ft & HF & W). rewrite HF. cbn [bind].
  apply Ok_inj in W. injection W as <- _. rewrite !cached_plain, PM. eexists. reflexivity.
Qed.

(** The flag of the copy is anything: so is the sixth byte written. *)
Lemma flag23_l z t b t' : write23 z t false = Ok (b, t') ->
  exists u, forall b' t'', write23 z (copy23 u t) false = Ok (b', t'') -> b' <> b.
Proof.
  intros W. exists (match t3_unsync t with Some true => Some false | _ => Some true end). intros b' t'' W' E.
  destruct (write23_inv _ _ _ _ _ W) as (n & h & _ & HD & EB). destruct (write23_inv _ _ _ _ _ W') as (n' & h' & _ & HD' & EB').
  destruct (tag_header_inv _ _ _ _ _ HD) as (z0 & z1 & z2 & z3 & -> & _). destruct (tag_header_inv _ _ _ _ _ HD') as (y0 & y1 & y2 & y3 & -> & _).
  rewrite EB, EB' in E. cbn [app B] in E.
  assert (F : N.lor (flags23 (copy23 match t3_unsync t with Some true => Some false | _ => Some true end t)) (bit_if false 128) = N.lor (flags23 t) (bit_if false 128)).
  { injection E. intros. assumption. }
  revert F. unfold flags23, copy23. cbn [t3_unsync t3_exp t3_ext].
  destruct (t3_unsync t) as [[|]|], (is_some (t3_ext t)), (t3_exp t); vm_compute; discriminate.
Qed.

Lemma flag24_l z t b t' : write24 z t false = Ok (b, t') ->
  exists u, forall c b' t'', copy24 u t = Ok c -> write24 z c false = Ok (b', t'') -> b' <> b.
Proof.
  intros W. exists (match t4_unsync t with Some true => Some false | _ => Some true end). intros c b' t'' CP W' E.
  destruct (write24_inv _ _ _ _ _ W) as (n & h & x & ft & _ & HD & _ & _ & EB).
  destruct (write24_inv _ _ _ _ _ W') as (n' & h' & x' & ft' & _ & HD' & _ & _ & EB').
  destruct (tag_header_inv _ _ _ _ _ HD) as (z0 & z1 & z2 & z3 & -> & _). destruct (tag_header_inv _ _ _ _ _ HD') as (y0 & y1 & y2 & y3 & -> & _).
  rewrite EB, EB' in E. cbn [app B] in E.
  assert (F : flags24 c = flags24 t) by (injection E; intros; assumption).
  unfold copy24 in CP. destruct (t4_ext t) as [y|] eqn:EX; [|discriminate CP]. apply Ok_inj in CP. subst c.
  revert F. unfold flags24. cbn [t4_unsync t4_exp t4_foot t4_ext]. rewrite EX.
  destruct (t4_unsync t) as [[|]|], (t4_exp t), (t4_foot t); vm_compute; discriminate.
Qed.
