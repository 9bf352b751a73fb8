(** * Lemmas: syncs counted by payloads. *)
From Verif Require Import Base M_Unsync S_Unsync L_Unsync M_Payload M_Cloud M_Ints L_Ints M_Count S_Count.

Fixpoint pr (P : N -> N -> bool) (l : bytes) : N :=
  match l with
  | x :: ((y :: _) as r) => b2n (P x y) + pr P r
  | _ => 0
  end.
Lemma pr_cons2 P x y r : pr P (x :: y :: r) = b2n (P x y) + pr P (y :: r).
Proof. reflexivity. Qed.

Lemma filter_seq_S (g : nat -> bool) a k :
  length (filter g (seq (S a) k)) = length (filter (fun i => g (S i)) (seq a k)).
Proof.
  revert a. induction k as [|k IH]; intros a; [reflexivity|].
  cbn [seq filter]. destruct (g (S a)); cbn [length]; rewrite IH; reflexivity.
Qed.
Lemma places_pr P w : places P w = pr P w.
Proof.
  induction w as [|x w IH]; [reflexivity|].
  destruct w as [|y r]; [reflexivity|].
  rewrite pr_cons2, <- IH. unfold places. cbn [length]. cbn [seq filter nth_error].
  assert (E : forall g : nat -> bool, length (filter g (seq 1 (S (length r))))
    = length (filter (fun i => g (S i)) (seq 0 (S (length r))))) by (intros; apply filter_seq_S).
  change (1%nat :: seq 2 (length r)) with (seq 1 (S (length r))).
  set (g := fun i => _).
  assert (Q : length (if P x y then 0%nat :: filter g (seq 1 (S (length r))) else filter g (seq 1 (S (length r))))
    = ((if P x y then 1 else 0) + length (filter g (seq 1 (S (length r)))))%nat)
    by (destruct (P x y); reflexivity).
  etransitivity; [apply (f_equal N.of_nat Q)|].
  rewrite (E g), Nat2N.inj_add. f_equal. destruct (P x y); reflexivity.
Qed.

Lemma count_pr l f : count_syncs l f = pr (sync_pair f) l.
Proof.
  induction l as [|x l IH]; [reflexivity|]. destruct l as [|y r]; [reflexivity|].
  rewrite pr_cons2, <- IH. unfold sync_pair, b2n. reflexivity.
Qed.

Definition jn (P : N -> N -> bool) (x : N) (l : bytes) : N :=
  match l with [] => 0 | y :: _ => b2n (P x y) end.
Lemma pr_cons P x l : pr P (x :: l) = jn P x l + pr P l.
Proof. destruct l; reflexivity. Qed.
Lemma jn_app P x a c : jn P x (a ++ c) = match a with [] => jn P x c | _ => jn P x a end.
Proof. destruct a; reflexivity. Qed.
Lemma pr_app P a c : a <> [] -> pr P (a ++ c) = pr P a + jn P (last a 0) c + pr P c.
Proof.
  induction a as [|x a IH]; intros Ha; [congruence|].
  destruct a as [|y r].
  - cbn [List.app last]. rewrite pr_cons. change (pr P [x]) with 0. apply (eq_sym (f_equal (fun z => z + pr P c) (N.add_0_l _))).
  - cbn [List.app]. rewrite !pr_cons2. change (y :: r ++ c) with ((y :: r) ++ c). rewrite IH by discriminate.
    change (last (x :: y :: r) 0) with (last (y :: r) 0). apply N.add_assoc || idtac.
    rewrite !N.add_assoc. reflexivity.
Qed.
(** For a test that no pair starting with nought passes, emptiness does not matter. *)
Definition starts_ff (P : N -> N -> bool) : Prop := forall x y, P x y = true -> x = 255.
Lemma jn_0 P l : starts_ff P -> jn P 0 l = 0.
Proof.
  intros H. destruct l as [|y r]; [reflexivity|]. cbn [jn]. destruct (P 0 y) eqn:E; [|reflexivity].
  apply H in E. discriminate.
Qed.
Lemma pr_app' P a c : starts_ff P -> pr P (a ++ c) = pr P a + jn P (last a 0) c + pr P c.
Proof.
  intros H. destruct a as [|x a]; [|apply pr_app; discriminate].
  cbn [List.app last]. rewrite jn_0 by exact H. reflexivity.
Qed.

Definition is_low (x y : N) : bool := (x =? 255) && (224 <=? y) && (y <=? 233).
Definition is_fs (x y : N) : bool := (x =? 255) && (224 <=? y).
Definition is_prot (x y : N) : bool := (x =? 255) && ((y =? 0) || (224 <=? y)).
Lemma low_ff : starts_ff is_low.
Proof. intros x y H. unfold is_low in H. apply andb_true_iff in H as [H _]. apply andb_true_iff in H as [H _]. apply N.eqb_eq, H. Qed.
Lemma fs_ff : starts_ff is_fs.
Proof. intros x y H. unfold is_fs in H. apply andb_true_iff in H as [H _]. apply N.eqb_eq, H. Qed.
Lemma prot_ff : starts_ff is_prot.
Proof. intros x y H. unfold is_prot in H. apply andb_true_iff in H as [H _]. apply N.eqb_eq, H. Qed.
Lemma pair_ff f : starts_ff (sync_pair f).
Proof.
  intros x y H. destruct f; unfold sync_pair, is_false_sync, needs_unsync in H;
  apply andb_true_iff in H as [H _]; symmetry; apply N.eqb_eq, H.
Qed.

Lemma pair_true x y : b2n (sync_pair true x y) + b2n (is_low x y) = b2n (is_fs x y).
Proof.
  unfold sync_pair, is_false_sync, is_low, is_fs. rewrite (N.eqb_sym 255 x).
  destruct (x =? 255); [cbn [andb]|reflexivity].
  destruct (N.ltb_spec 233 y), (N.leb_spec 224 y), (N.leb_spec y 233); try reflexivity; lia.
Qed.
Lemma pair_false x y : b2n (sync_pair false x y) + b2n (is_low x y) = b2n (is_prot x y).
Proof.
  unfold sync_pair, needs_unsync, is_low, is_prot. rewrite (N.eqb_sym 255 x), (N.eqb_sym 0 y).
  destruct (x =? 255); [cbn [andb]|reflexivity].
  destruct (N.ltb_spec 233 y), (N.leb_spec 224 y), (N.leb_spec y 233), (N.eqb_spec y 0); try reflexivity; lia.
Qed.
Lemma pr_sum P Q R : (forall x y, b2n (P x y) + b2n (Q x y) = b2n (R x y)) -> forall l, pr P l + pr Q l = pr R l.
Proof.
  intros H l. induction l as [|x l IH]; [reflexivity|]. destruct l as [|y r]; [reflexivity|].
  rewrite !pr_cons2. rewrite <- IH, <- H. lia.
Qed.
Lemma false_eq l : pr (sync_pair true) l + low_syncs l = false_syncs l.
Proof.
  unfold low_syncs, false_syncs. rewrite !places_pr. apply pr_sum. exact pair_true.
Qed.

Lemma unsync_growth l : is_bytes l -> len (unsynchronise l false) = len l + pr is_prot l.
Proof.
  induction l as [|x l IH]; intros Hb; [reflexivity|].
  inversion Hb as [|x' l' Hx Hl]; subst. specialize (IH Hl).
  cbn [unsynchronise]. destruct (N.eqb_spec x 255) as [->|NE].
  - destruct l as [|y r]; [reflexivity|]. rewrite pr_cons2.
    assert (Hy : y < 256) by (inversion Hl; assumption).
    unfold is_prot at 1. rewrite (land224_ge y Hy). cbn [N.eqb Pos.eqb andb].
    destruct ((y =? 0) || (224 <=? y)); cbn [b2n]; rewrite !len_cons in *; lia.
  - assert (Z : pr is_prot (x :: l) = pr is_prot l).
    { rewrite pr_cons. unfold jn, is_prot. destruct l as [|y r]; [reflexivity|].
      rewrite (proj2 (N.eqb_neq x 255) NE). reflexivity. }
    rewrite Z, !len_cons. lia.
Qed.
Lemma grown_eq l : is_bytes l -> len l + pr (sync_pair false) l + low_syncs l = len (unsynchronise l false).
Proof.
  intros H. rewrite unsync_growth by exact H. unfold low_syncs. rewrite places_pr.
  rewrite <- (pr_sum _ _ _ pair_false l). fold is_low. unfold is_low. lia.
Qed.

Lemma true_0 x : sync_pair true x 0 = false.
Proof. unfold sync_pair, is_false_sync. destruct (255 =? x); reflexivity. Qed.
Lemma false_0 x : b2n (sync_pair false x 0) = if x =? 255 then 1 else 0.
Proof. unfold sync_pair, needs_unsync. rewrite (N.eqb_sym 255 x). destruct (x =? 255); reflexivity. Qed.
Lemma jn_zero f x r : jn (sync_pair f) x (0 :: r) = if f then 0 else if x =? 255 then 1 else 0.
Proof. cbn [jn]. destruct f; [rewrite true_0; reflexivity|apply false_0]. Qed.
Lemma jn_join f x l : join_syncs f x l = jn (sync_pair f) x l.
Proof. reflexivity. Qed.
Lemma pr_zero f l : pr (sync_pair f) (0 :: l) = pr (sync_pair f) l.
Proof. rewrite pr_cons, (jn_0 _ _ (pair_ff f)). reflexivity. Qed.

(** A string, a NUL and what follows. *)
Lemma pr_nul f a c : pr (sync_pair f) (a ++ [0] ++ c)
  = pr (sync_pair f) a + (if f then 0 else ends_ff a) + pr (sync_pair f) c.
Proof.
  rewrite (pr_app' _ _ _ (pair_ff f)). cbn [List.app]. rewrite jn_zero, pr_zero. reflexivity.
Qed.
Lemma pr_nul2 f a c : pr (sync_pair f) (a ++ [0; 0] ++ c)
  = pr (sync_pair f) a + (if f then 0 else ends_ff a) + pr (sync_pair f) c.
Proof.
  rewrite (pr_app' _ _ _ (pair_ff f)). cbn [List.app]. rewrite jn_zero, !pr_zero. reflexivity.
Qed.

(** ** Payload by payload *)
Lemma ufid_true u : syncs_ufid u true + low_syncs (write_ufid u) = false_syncs (write_ufid u).
Proof.
  rewrite <- false_eq. unfold write_ufid, syncs_ufid. rewrite pr_nul, !count_pr. lia.
Qed.
Lemma len_nul (a c : bytes) : len (a ++ [0] ++ c) = len a + 1 + len c.
Proof. rewrite !len_app. change (len [0]) with 1. lia. Qed.
Lemma ufid_size u : is_bytes (write_ufid u) ->
  serial_ufid u true + low_syncs (write_ufid u) + ends_ff (uf_owner u) = len (unsynchronise (write_ufid u) false).
Proof.
  intros H. rewrite <- grown_eq by exact H. unfold write_ufid, serial_ufid, syncs_ufid, size_ufid.
  rewrite pr_nul, len_nul, !count_pr. lia.
Qed.
Lemma priv_true p : syncs_priv p true + low_syncs (write_priv p) = false_syncs (write_priv p).
Proof.
  rewrite <- false_eq. unfold write_priv, syncs_priv. rewrite pr_nul, !count_pr. lia.
Qed.
Lemma priv_size p : is_bytes (write_priv p) ->
  serial_priv p true + low_syncs (write_priv p) + ends_ff (pr_email p) = len (unsynchronise (write_priv p) false).
Proof.
  intros H. rewrite <- grown_eq by exact H. unfold write_priv, serial_priv, syncs_priv, size_priv.
  rewrite pr_nul, len_nul, !count_pr. lia.
Qed.
Lemma pcnt_true c : syncs_pcnt c true + low_syncs c = false_syncs c.
Proof. rewrite <- false_eq. unfold syncs_pcnt. rewrite count_pr. reflexivity. Qed.
Lemma pcnt_size c : is_bytes c -> serial_pcnt c true + low_syncs c = len (unsynchronise c false).
Proof.
  intros H. rewrite <- grown_eq by exact H. unfold serial_pcnt, syncs_pcnt. rewrite count_pr. reflexivity.
Qed.
Lemma popm_true p : syncs_popm p true + low_syncs (write_popm p) = false_syncs (write_popm p).
Proof.
  rewrite <- false_eq. unfold write_popm, syncs_popm. rewrite pr_nul. cbn [List.app].
  rewrite pr_cons, !count_pr, jn_join. lia.
Qed.
Lemma popm_size p : is_bytes (write_popm p) ->
  serial_popm p true + low_syncs (write_popm p) + ends_ff (po_email p) = len (unsynchronise (write_popm p) false).
Proof.
  intros H. rewrite <- grown_eq by exact H. unfold write_popm, serial_popm, syncs_popm, size_popm.
  rewrite pr_nul, len_nul. cbn [List.app]. rewrite pr_cons, len_cons, !count_pr, jn_join. lia.
Qed.

Lemma pr_nils f (k : bool) a c : pr (sync_pair f) (a ++ (if k then [0; 0] else [0]) ++ c)
  = pr (sync_pair f) a + (if f then 0 else ends_ff a) + pr (sync_pair f) c.
Proof. destruct k; [apply pr_nul2|apply pr_nul]. Qed.
Lemma txxx_pr t f : pr (sync_pair f) (write_txxx t)
  = syncs_txxx t f + (if f then 0 else ends_ff (ud_unicode t :: ud_desc t)).
Proof.
  unfold write_txxx, syncs_txxx. change ([ud_unicode t] ++ ud_desc t ++ (if ud_cbnil t =? 2 then [0; 0] else [0]) ++ ud_text t)
    with ((ud_unicode t :: ud_desc t) ++ (if ud_cbnil t =? 2 then [0; 0] else [0]) ++ ud_text t).
  rewrite pr_nils, pr_cons, !count_pr, jn_join. lia.
Qed.
Lemma txxx_true t : syncs_txxx t true + low_syncs (write_txxx t) = false_syncs (write_txxx t).
Proof. rewrite <- false_eq, txxx_pr. lia. Qed.
Lemma txxx_len t : ud_cbnil t = 1 \/ ud_cbnil t = 2 -> len (write_txxx t) = size_txxx t.
Proof.
  intros H. unfold write_txxx, size_txxx. rewrite !len_app. change (len [ud_unicode t]) with 1.
  destruct H as [->| ->]; cbn [N.eqb Pos.eqb]; [change (len [0]) with 1|change (len [0; 0]) with 2]; lia.
Qed.
Lemma txxx_size t : is_bytes (write_txxx t) -> ud_cbnil t = 1 \/ ud_cbnil t = 2 ->
  serial_txxx t true + low_syncs (write_txxx t) + ends_ff (ud_unicode t :: ud_desc t)
  = len (unsynchronise (write_txxx t) false).
Proof.
  intros H K. rewrite <- grown_eq by exact H. rewrite txxx_pr, (txxx_len t K). unfold serial_txxx. lia.
Qed.

(** Comments: what is counted across the terminator. *)
Definition across (f : bool) (d t : bytes) : N :=
  match d with [] => 0 | _ => join_syncs f (last d 0) t end.
Lemma last_app_ne (a c : bytes) d : c <> [] -> last (a ++ c) d = last c d.
Proof.
  intros H. induction a as [|x a IH]; [reflexivity|]. cbn [List.app]. rewrite <- IH.
  destruct a as [|y r]; [|reflexivity]. destruct c; [congruence|reflexivity].
Qed.
Lemma comm_pr f u a2 b2 c2 (k : bool) d t :
  pr (sync_pair f) ([u] ++ [a2; b2; c2] ++ d ++ (if k then [0; 0] else [0]) ++ t)
  = b2n (sync_pair f u a2) + count_syncs [a2; b2; c2] f + join_syncs f c2 d + count_syncs d f
    + (if f then 0 else ends_ff (c2 :: d)) + count_syncs t f.
Proof.
  change ([u] ++ [a2; b2; c2] ++ d ++ (if k then [0; 0] else [0]) ++ t)
    with (([u; a2; b2; c2] ++ d) ++ (if k then [0; 0] else [0]) ++ t) || idtac.
  rewrite !List.app_assoc. rewrite <- (List.app_assoc _ (if k then [0; 0] else [0]) t).
  rewrite pr_nils. cbn [List.app]. rewrite !pr_cons2, (pr_cons _ c2 d), !count_pr, jn_join.
  assert (E : ends_ff (u :: a2 :: b2 :: c2 :: d) = ends_ff (c2 :: d)) by reflexivity.
  rewrite E. rewrite !pr_cons2. change (pr (sync_pair f) [c2]) with 0. lia.
Qed.
Lemma rev_last (d : bytes) x r : rev d = x :: r -> last d 0 = x.
Proof.
  intros E. rewrite <- (rev_involutive d), E. cbn [rev]. apply last_last.
Qed.
Lemma across_crosses f d t : across f d t = crosses (if f then taken_false else taken_bare) d t.
Proof.
  unfold across, crosses. destruct (rev d) as [|x r] eqn:E.
  - assert (Z : d = []) by (rewrite <- (rev_involutive d), E; reflexivity). rewrite Z. reflexivity.
  - rewrite (rev_last d x r E). destruct d as [|z d]; [discriminate|]. destruct t as [|y t]; [reflexivity|].
    cbn [join_syncs]. unfold b2n, sync_pair, is_false_sync, needs_unsync, taken_false, taken_bare.
    rewrite (N.eqb_sym 255 x), (N.eqb_sym 0 y).
    assert (Q : (233 <? y) = (234 <=? y)) by (destruct (N.ltb_spec 233 y), (N.leb_spec 234 y); try reflexivity; lia).
    rewrite Q. destruct f; [reflexivity|]. rewrite (orb_comm (234 <=? y)). reflexivity.
Qed.

Lemma comm_write c u lg : co_unicode c = Some u -> co_lang c = Some lg -> co_cbnil c = 1 \/ co_cbnil c = 2 ->
  write_comm c = Ok ([u] ++ lg ++ co_desc c ++ (if co_cbnil c =? 2 then [0; 0] else [0]) ++ co_text c).
Proof.
  intros Hu Hl K. unfold write_comm. rewrite Hu, Hl. destruct K as [->| ->]; reflexivity.
Qed.
Lemma comm_ok c u lg f : co_unicode c = Some u -> co_lang c = Some lg -> (co_text c = [] -> co_desc c = []) ->
  syncs_comm c f = Ok (b2n (sync_pair f u (hd 0 lg)) + count_syncs lg f
              + join_syncs f (last lg 0) (co_desc c) + count_syncs (co_desc c) f
              + across f (co_desc c) (co_text c) + count_syncs (co_text c) f).
Proof.
  intros Hu Hl K. unfold syncs_comm, across. rewrite Hu, Hl. destruct (co_desc c) as [|x d]; [reflexivity|].
  destruct (co_text c) as [|y t]; [|reflexivity]. specialize (K eq_refl). discriminate.
Qed.
Lemma comm_eq c u lg f w : co_unicode c = Some u -> co_lang c = Some lg -> length lg = 3%nat ->
  co_cbnil c = 1 \/ co_cbnil c = 2 -> (co_text c = [] -> co_desc c = []) -> write_comm c = Ok w ->
  exists n, syncs_comm c f = Ok n /\
    n + (if f then 0 else ends_ff (lg ++ co_desc c)) = pr (sync_pair f) w + across f (co_desc c) (co_text c).
Proof.
  intros Hu Hl L3 K T W. rewrite (comm_write c u lg Hu Hl K) in W. apply Ok_inj in W. rewrite <- W.
  rewrite (comm_ok c u lg f Hu Hl T). eexists. split; [reflexivity|].
  destruct lg as [|a2 [|b2 [|c2 [|]]]]; try discriminate L3.
  rewrite comm_pr. cbn [hd]. change (last [a2; b2; c2] 0) with c2.
  assert (E : ends_ff ([a2; b2; c2] ++ co_desc c) = ends_ff (c2 :: co_desc c)) by reflexivity.
  rewrite E. lia.
Qed.
Lemma comm_len c u lg w : co_unicode c = Some u -> co_lang c = Some lg -> length lg = 3%nat ->
  co_cbnil c = 1 \/ co_cbnil c = 2 -> write_comm c = Ok w -> len w = size_comm c.
Proof.
  intros Hu Hl L3 K W. rewrite (comm_write c u lg Hu Hl K) in W. apply Ok_inj in W. rewrite <- W.
  unfold size_comm. rewrite !len_app. assert (Z : len lg = 3) by (unfold len; rewrite L3; reflexivity).
  rewrite Z. change (len [u]) with 1.
  destruct K as [->| ->]; cbn [N.eqb Pos.eqb]; [change (len [0]) with 1|change (len [0; 0]) with 2]; lia.
Qed.
Lemma comm_true c u lg w : co_unicode c = Some u -> co_lang c = Some lg -> length lg = 3%nat ->
  co_cbnil c = 1 \/ co_cbnil c = 2 -> (co_text c = [] -> co_desc c = []) -> write_comm c = Ok w ->
  exists n, syncs_comm c true = Ok n /\
    n + low_syncs w = false_syncs w + crosses taken_false (co_desc c) (co_text c).
Proof.
  intros Hu Hl L3 K T W. destruct (comm_eq c u lg true w Hu Hl L3 K T W) as (n & E & Q).
  exists n. split; [exact E|]. rewrite (across_crosses true) in Q. rewrite <- false_eq. lia.
Qed.
Lemma comm_size c u lg w : co_unicode c = Some u -> co_lang c = Some lg -> length lg = 3%nat ->
  co_cbnil c = 1 \/ co_cbnil c = 2 -> (co_text c = [] -> co_desc c = []) -> write_comm c = Ok w -> is_bytes w ->
  exists n, serial_comm c true = Ok n /\
    n + low_syncs w + ends_ff (lg ++ co_desc c)
    = len (unsynchronise w false) + crosses taken_bare (co_desc c) (co_text c).
Proof.
  intros Hu Hl L3 K T W HB. destruct (comm_eq c u lg false w Hu Hl L3 K T W) as (n & E & Q).
  exists (size_comm c + n). split; [unfold serial_comm; rewrite E; reflexivity|].
  rewrite (across_crosses false) in Q. rewrite <- grown_eq by exact HB.
  rewrite (comm_len c u lg w Hu Hl L3 K W). lia.
Qed.
Lemma comm_ub c u lg f x d : co_unicode c = Some u -> co_lang c = Some lg -> co_desc c = x :: d -> co_text c = [] ->
  syncs_comm c f = UB OutOfBounds.
Proof. intros Hu Hl D T. unfold syncs_comm. rewrite Hu, Hl, D, T. reflexivity. Qed.

(** Encryption methods *)
Lemma encr_pr f e m : en_method e = Some m -> exists n, syncs_encr e f = Ok n /\
  n + (if f then 0 else crosses (fun x y => (x =? 255) && (y =? 0)) [m] (en_data e))
  = pr (sync_pair f) (en_email e ++ [m] ++ en_data e).
Proof.
  intros E. unfold syncs_encr. rewrite E. eexists. split; [reflexivity|].
  rewrite (pr_app' _ _ _ (pair_ff f)). cbn [List.app]. cbn [jn]. rewrite pr_cons, !count_pr.
  assert (A : match en_email e with [] => 0 | _ :: _ => b2n (sync_pair f (last (en_email e) 0) m) end
    = b2n (sync_pair f (last (en_email e) 0) m)).
  { destruct (en_email e); [|reflexivity]. cbn [last].
    pose proof (jn_0 _ [m] (pair_ff f)) as Z. cbn [jn] in Z. rewrite Z. reflexivity. }
  rewrite A. destruct (en_data e) as [|y r]; [cbn [jn]; destruct f; cbn; lia|].
  cbn [jn]. unfold crosses. cbn [rev List.app].
  assert (B : b2n (is_false_sync m y) + (if f then 0 else if (m =? 255) && (y =? 0) then 1 else 0)
    = b2n (sync_pair f m y)).
  { unfold sync_pair, is_false_sync, needs_unsync. rewrite (N.eqb_sym 255 m), (N.eqb_sym 0 y). destruct f; [apply N.add_0_r|].
    destruct (m =? 255); [|reflexivity]. cbn [andb].
    destruct (N.ltb_spec 233 y), (N.eqb_spec y 0); try reflexivity; lia. }
  rewrite <- B. lia.
Qed.
Lemma encr_true e w : write_encr e = Ok w ->
  exists n, syncs_encr e true = Ok n /\ n + low_syncs w = false_syncs w.
Proof.
  unfold write_encr. destruct (en_method e) as [m|] eqn:E; [|discriminate]. intros W. apply Ok_inj in W. rewrite <- W.
  destruct (encr_pr true e m E) as (n & Q & A). exists n. split; [exact Q|]. rewrite <- false_eq. lia.
Qed.
Lemma encr_size e m w : en_method e = Some m -> write_encr e = Ok w -> is_bytes w ->
  exists n, serial_encr e true = Ok n /\
    n + low_syncs w + crosses (fun x y => (x =? 255) && (y =? 0)) [m] (en_data e)
    = len (unsynchronise w false) + 1.
Proof.
  unfold write_encr. intros E. rewrite E. intros W HB. apply Ok_inj in W. rewrite <- W in *.
  destruct (encr_pr false e m E) as (n & Q & A). exists (size_encr e + n).
  split; [unfold serial_encr; rewrite Q; reflexivity|]. rewrite <- grown_eq by exact HB. rewrite <- A.
  unfold size_encr. rewrite !len_app. change (len [m]) with 1. lia.
Qed.

(** Tag clouds *)
Lemma word_small n : n < 59904 -> exists hi lo, hi < 234 /\ lo < 256 /\
  be32 (n mod 2 ^ 32) = [0; 0; hi; lo] /\ N.land 255 (n mod 2 ^ 32) = lo /\
  (forall f, count_syncs32 (n mod 2 ^ 32) f = count_syncs [lo; hi; 0; 0] f) /\ n mod 256 = lo.
Proof.
  intros H. exists (n / 256), (n mod 256).
  assert (E : n mod 2 ^ 32 = n) by (apply N.mod_small; change (2 ^ 32) with 4294967296; lia).
  assert (A : n / 256 < 234) by (apply N.div_lt_upper_bound; lia).
  assert (Bm : n mod 256 < 256) by (apply N.mod_lt; lia).
  assert (D : n / 256 mod 256 = n / 256) by (apply N.mod_small; lia).
  assert (D2 : n / 65536 mod 256 = 0) by (rewrite N.div_small by lia; reflexivity).
  assert (D3 : n / 16777216 mod 256 = 0) by (rewrite N.div_small by lia; reflexivity).
  rewrite E. split; [exact A|]. split; [exact Bm|]. split; [|split; [|split]].
  - rewrite be32_spec, D, D2, D3. reflexivity.
  - rewrite N.land_comm. apply land255.
  - intros f. unfold count_syncs32. rewrite !land255, !N.shiftr_div_pow2.
    change (2 ^ 8) with 256. change (2 ^ 16) with 65536. change (2 ^ 24) with 16777216. rewrite D, D2, D3. reflexivity.
  - reflexivity.
Qed.
Lemma flat_pr vs rest : pr (sync_pair true) (flat_map cstring vs ++ rest)
  = fold_right (fun v n => count_syncs v true + n) 0 vs + pr (sync_pair true) rest.
Proof.
  induction vs as [|v vs IH]; [reflexivity|]. cbn [flat_map fold_right]. unfold cstring at 1.
  rewrite <- !List.app_assoc. rewrite pr_nul, IH, count_pr. lia.
Qed.
Lemma entry_pr k v vs rest : values_size (v :: vs) < 59904 -> exists n, syncs_entry true (k, v :: vs) = Ok n /\
  pr (sync_pair true) (write_entry (k, v :: vs) ++ rest) = n + pr (sync_pair true) rest.
Proof.
  intros H. destruct (word_small _ H) as (hi & lo & Hh & Hl & E & El & Ec & _).
  unfold syncs_entry, write_entry. cbn [fst snd]. eexists. split; [reflexivity|].
  rewrite E, El, Ec. unfold cstring at 1. rewrite <- !List.app_assoc. rewrite pr_nul.
  change ([0; 0; hi; lo] ++ flat_map cstring (v :: vs) ++ rest)
    with (0 :: 0 :: hi :: lo :: flat_map cstring (v :: vs) ++ rest).
  rewrite !pr_zero. rewrite pr_cons2, pr_cons, flat_pr.
  assert (J : jn (sync_pair true) lo (flat_map cstring (v :: vs) ++ rest) = b2n (is_false_sync lo (hd 0 v))).
  { cbn [flat_map]. unfold cstring at 1. destruct v; reflexivity. }
  assert (Z : sync_pair true hi lo = false).
  { unfold sync_pair, is_false_sync. destruct (N.eqb_spec 255 hi); [lia|reflexivity]. }
  assert (Y : count_syncs [lo; hi; 0; 0] true = 0).
  { rewrite count_pr, !pr_cons2, !true_0. unfold sync_pair, is_false_sync.
    destruct (N.ltb_spec 233 hi); [lia|]. rewrite andb_false_r. reflexivity. }
  assert (X : (255 =? lo) && is_false_sync 255 (hd 0 v) = is_false_sync lo (hd 0 v)).
  { unfold is_false_sync. destruct (N.eqb_spec 255 lo); reflexivity. }
  rewrite J, Z, Y, X, (count_pr k). cbn [b2n]. lia.
Qed.
Lemma entries_pr m : Forall (fun kv => snd kv <> [] /\ values_size (snd kv) < 59904) m ->
  exists n, syncs_entries true m = Ok n /\ pr (sync_pair true) (flat_map write_entry m) = n.
Proof.
  induction 1 as [|[k vs] m (Hn & Hs) _ IH]; [exists 0; split; reflexivity|].
  destruct IH as (n & E & Q). cbn [snd] in *. destruct vs as [|v vs]; [congruence|].
  destruct (entry_pr k v vs (flat_map write_entry m) Hs) as (a & Ea & Qa).
  exists (a + n). cbn [syncs_entries flat_map]. rewrite Ea, E. split; [reflexivity|]. rewrite Qa, Q. reflexivity.
Qed.
Lemma cloud_true c : Forall (fun kv => snd kv <> [] /\ values_size (snd kv) < 59904) (tc_tags c) ->
  exists n, syncs_cloud c true = Ok n /\ n + low_syncs (write_cloud c) = false_syncs (write_cloud c).
Proof.
  intros H. destruct (entries_pr _ H) as (n & E & Q). unfold syncs_cloud. rewrite E.
  eexists. split; [reflexivity|]. rewrite <- false_eq. f_equal. unfold write_cloud, cstring.
  change ([1] ++ (tc_owner c ++ [0]) ++ flat_map write_entry (tc_tags c))
    with (1 :: ((tc_owner c ++ [0]) ++ flat_map write_entry (tc_tags c))).
  rewrite <- List.app_assoc, pr_cons, pr_nul, Q, count_pr.
  assert (J : forall l, jn (sync_pair true) 1 l = 0) by (intros [|y r]; reflexivity).
  rewrite J. lia.
Qed.
Lemma cloud_ub c k : In (k, []) (tc_tags c) ->
  exists b, syncs_cloud c true = UB b.
Proof.
  intros H. exists BadIterator. unfold syncs_cloud.
  assert (E : syncs_entries true (tc_tags c) = UB BadIterator); [|rewrite E; reflexivity].
  induction (tc_tags c) as [|[k' vs] m IH]; [destruct H|].
  cbn [syncs_entries]. destruct vs as [|v vs]; [reflexivity|].
  destruct H as [H|H]; [discriminate H|]. rewrite (IH H). reflexivity.
Qed.

Lemma pr_no_ff P l : starts_ff P -> ~ In 255 l -> pr P l = 0.
Proof.
  intros HP. induction l as [|x l IH]; intros H; [reflexivity|]. rewrite pr_cons.
  rewrite IH by (intros Q; apply H; right; exact Q). destruct l as [|y r]; [reflexivity|].
  cbn [jn]. destruct (P x y) eqn:E; [|reflexivity]. apply HP in E. exfalso. apply H. left. exact E.
Qed.
Lemma count_no_ff f l : ~ In 255 l -> count_syncs l f = 0.
Proof. intros H. rewrite count_pr. apply pr_no_ff; [apply pair_ff|exact H]. Qed.
Lemma unsync_no_ff l : ~ In 255 l -> unsynchronise l false = l.
Proof.
  induction l as [|x l IH]; intros H; [reflexivity|]. cbn [unsynchronise].
  destruct (N.eqb_spec x 255) as [->|NE]; [exfalso; apply H; left; reflexivity|].
  rewrite IH by (intros Q; apply H; right; exact Q). reflexivity.
Qed.
Lemma sum_no_ff vs : Forall (fun v => ~ In 255 v) vs -> fold_right (fun v n => count_syncs v false + n) 0 vs = 0.
Proof.
  induction 1 as [|v vs H _ IH]; [reflexivity|]. cbn [fold_right]. rewrite IH, count_no_ff by exact H. reflexivity.
Qed.
Lemma flat_no_ff vs : Forall (fun v => ~ In 255 v) vs -> ~ In 255 (flat_map cstring vs).
Proof.
  induction 1 as [|v vs H _ IH]; [intros []|]. cbn [flat_map]. unfold cstring at 1.
  intros Q. apply in_app_or in Q as [Q|Q]; [|exact (IH Q)].
  apply in_app_or in Q as [Q|[Q|[]]]; [exact (H Q)|discriminate Q].
Qed.
Lemma calm_word kv : calm_entry kv -> ~ In 255 (be32 (values_size (snd kv) mod 2 ^ 32)) /\
  count_syncs32 (values_size (snd kv) mod 2 ^ 32) false = 0.
Proof.
  intros (_ & _ & Hs & Hm). destruct (word_small _ Hs) as (hi & lo & Hh & Hl & E & El & Ec & Em).
  rewrite E, Ec. rewrite Em in Hm. clear - Hh Hm. split.
  - intros [Q|[Q|[Q|[Q|[]]]]]; lia.
  - apply count_no_ff. intros [Q|[Q|[Q|[Q|[]]]]]; lia.
Qed.
Lemma calm_entries m : Forall calm_entry m -> syncs_entries false m = Ok 0 /\ ~ In 255 (flat_map write_entry m).
Proof.
  induction 1 as [|kv m H _ (E & N2)]; [split; [reflexivity|intros []]|].
  destruct (calm_word kv H) as (W1 & W2). destruct H as (Hk & Hv & _).
  cbn [syncs_entries flat_map]. unfold syncs_entry. rewrite W2, E, (sum_no_ff _ Hv), (count_no_ff _ _ Hk).
  split; [reflexivity|]. intros Q. apply in_app_or in Q as [Q|Q]; [|exact (N2 Q)].
  unfold write_entry, cstring in Q. apply in_app_or in Q as [Q|Q].
  - apply in_app_or in Q as [Q|[Q|[]]]; [exact (Hk Q)|discriminate Q].
  - apply in_app_or in Q as [Q|Q]; [exact (W1 Q)|exact (flat_no_ff _ Hv Q)].
Qed.
Lemma values_len vs : len (flat_map cstring vs) = values_size vs.
Proof.
  induction vs as [|v vs IH]; [reflexivity|]. cbn [flat_map values_size fold_right]. rewrite len_app.
  unfold cstring at 1. rewrite len_app. change (len [0]) with 1. fold (values_size vs). rewrite IH. reflexivity.
Qed.
Lemma cloud_len c : len (write_cloud c) = size_cloud c.
Proof.
  unfold write_cloud, size_cloud, cstring. rewrite !len_app. change (len [1]) with 1. change (len [0]) with 1.
  assert (E : len (flat_map write_entry (tc_tags c)) =
    fold_right (fun kv n => len (fst kv) + 1 + 4 + values_size (snd kv) + n) 0 (tc_tags c)); [|rewrite E; lia].
  induction (tc_tags c) as [|kv m IH]; [reflexivity|]. cbn [flat_map fold_right]. rewrite len_app, IH.
  unfold write_entry, cstring. rewrite !len_app, values_len, be32_len. change (len [0]) with 1. rewrite !N.add_assoc. reflexivity.
Qed.
Lemma cloud_size c : ~ In 255 (tc_owner c) -> Forall calm_entry (tc_tags c) ->
  serial_cloud c true = Ok (len (unsynchronise (write_cloud c) false)).
Proof.
  intros Ho Hm. destruct (calm_entries _ Hm) as (E & NI). unfold serial_cloud, syncs_cloud. rewrite E.
  cbn [bind]. rewrite (count_no_ff _ _ Ho), unsync_no_ff, cloud_len; [rewrite N.add_0_r; reflexivity|].
  unfold write_cloud, cstring. intros [Q|Q]; [discriminate Q|]. cbn [List.app] in Q.
  apply in_app_or in Q as [Q|Q]; [|exact (NI Q)]. apply in_app_or in Q as [Q|[Q|[]]]; [exact (Ho Q)|discriminate Q].
Qed.
