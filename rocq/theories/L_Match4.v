(** * Lemmas: all comparisons. *)
From Coq Require Import ZArith.
From Verif Require Import Base M_Genres M_Match S_Match L_Match L_Match2 L_Match3.
Open Scope Z_scope.

(** ** Alignments and cells *)
Lemma R_of_align a b d : align a b d -> forall A B pa pb p, A = pa ++ a -> B = pb ++ b ->
  R A B p (length pa) (length pb) -> R A B (p + d) (length A) (length B).
Proof.
  induction 1 as [|c a b d H IH|x y a b d H IH|x a b d H IH|y a b d H IH|x y a b d H IH]; intros A B pa pb p EA EB HR.
  - rewrite app_nil_r in EA, EB. subst. rewrite Nat.add_0_r. assumption.
  - apply (IH A B (pa ++ [c]) (pb ++ [c])); try (subst; now rewrite <- app_assoc).
    rewrite !app_length. cbn [length]. rewrite !Nat.add_1_r. apply R_m; [assumption|].
    exists c. subst. rewrite !nth_error_app2, !Nat.sub_diag by lia. auto.
  - rewrite Nat.add_succ_r, <- Nat.add_succ_l.
    apply (IH A B (pa ++ [x]) (pb ++ [y])); try (subst; now rewrite <- app_assoc).
    rewrite !app_length. cbn [length]. rewrite !Nat.add_1_r. now apply R_s.
  - rewrite Nat.add_succ_r, <- Nat.add_succ_l.
    apply (IH A B (pa ++ [x]) pb); try (subst; now rewrite <- ?app_assoc).
    rewrite !app_length. cbn [length]. rewrite !Nat.add_1_r. now apply R_d.
  - rewrite Nat.add_succ_r, <- Nat.add_succ_l.
    apply (IH A B pa (pb ++ [y])); try (subst; now rewrite <- ?app_assoc).
    rewrite !app_length. cbn [length]. rewrite !Nat.add_1_r. now apply R_i.
  - rewrite Nat.add_succ_r, <- Nat.add_succ_l.
    apply (IH A B (pa ++ [x; y]) (pb ++ [y; x])); try (subst; now rewrite <- ?app_assoc).
    rewrite !app_length. cbn [length].
    replace (length pa + 2)%nat with (S (S (length pa))) by lia. replace (length pb + 2)%nat with (S (S (length pb))) by lia.
    apply R_t; [assumption|]. exists x, y. subst.
    rewrite !nth_error_app2 by lia. rewrite !Nat.sub_diag, !Nat.sub_succ_l, !Nat.sub_diag by lia. auto.
Qed.

Lemma align_app a b d a' b' d' : align a b d -> align a' b' d' -> align (a ++ a') (b ++ b') (d + d').
Proof.
  intros H H'. induction H; cbn [app]; rewrite ?Nat.add_succ_l; [assumption| | | | |].
  - now apply align_same.
  - now apply align_subst.
  - now apply align_delete.
  - now apply align_insert.
  - now apply align_swap.
Qed.

Lemma firstn_S {A} (l : list A) i x : nth_error l i = Some x -> firstn (S i) l = firstn i l ++ [x].
Proof.
  revert l. induction i as [|i IH]; intros [|y l] H; try discriminate.
  - cbn in H. inversion H. reflexivity.
  - cbn [firstn app]. f_equal. now apply IH.
Qed.
Lemma nth_in {A} (l : list A) i : (i < length l)%nat -> exists x, nth_error l i = Some x.
Proof. intros H. apply nth_error_Some in H. destruct (nth_error l i); [eauto|congruence]. Qed.

Lemma align_of_R A B p i j : R A B p i j -> (i <= length A)%nat -> (j <= length B)%nat ->
  exists d, (d <= p)%nat /\ align (firstn i A) (firstn j B) d.
Proof.
  induction 1 as [|p i j H IH M|p i j H IH|p i j H IH|p i j H IH|p i j H IH T|p i j H IH]; intros Hi Hj.
  - exists 0%nat. split; [lia|constructor].
  - destruct IH as (d & L & AL); try lia. destruct M as (c & C1 & C2).
    rewrite (firstn_S A i c C1), (firstn_S B j c C2). exists (d + 0)%nat. split; [lia|].
    apply align_app; [assumption|]. apply align_same, align_nil.
  - destruct IH as (d & L & AL); try lia.
    destruct (nth_in A i) as [x X]; [lia|]. destruct (nth_in B j) as [y Y]; [lia|].
    rewrite (firstn_S A i x X), (firstn_S B j y Y). exists (d + 1)%nat. split; [lia|].
    apply align_app; [assumption|]. apply align_subst, align_nil.
  - destruct IH as (d & L & AL); try lia. destruct (nth_in A i) as [x X]; [lia|].
    rewrite (firstn_S A i x X). rewrite <- (app_nil_r (firstn j B)). exists (d + 1)%nat. split; [lia|].
    apply align_app; [assumption|]. apply align_delete, align_nil.
  - destruct IH as (d & L & AL); try lia. destruct (nth_in B j) as [y Y]; [lia|].
    rewrite (firstn_S B j y Y). rewrite <- (app_nil_r (firstn i A)). exists (d + 1)%nat. split; [lia|].
    apply align_app; [assumption|]. apply align_insert, align_nil.
  - destruct IH as (d & L & AL); try lia. destruct T as (x & y & T1 & T2 & T3 & T4).
    rewrite (firstn_S A (S i) y T2), (firstn_S A i x T1), (firstn_S B (S j) x T4), (firstn_S B j y T3).
    rewrite <- !app_assoc. exists (d + 1)%nat. split; [lia|]. apply align_app; [assumption|]. apply align_swap, align_nil.
  - destruct IH as (d & L & AL); try lia. exists d. split; [lia|assumption].
Qed.

Lemma R_align A B p : R A B p (length A) (length B) <-> exists d, (d <= p)%nat /\ align A B d.
Proof.
  split.
  - intros H. apply align_of_R in H; auto. now rewrite !firstn_all in H.
  - intros (d & L & H). apply (R_mono A B d); [|assumption].
    apply (R_of_align A B d H A B [] [] 0); auto. apply R_0.
Qed.

(** ** There is a distance *)
Fixpoint alignb (fuel : nat) (a b : list N) (d : nat) : bool :=
  match fuel with
  | O => match a, b with [], [] => Nat.eqb d 0 | _, _ => false end
  | S f =>
      match a, b with [], [] => Nat.eqb d 0 | _, _ => false end ||
      match a, b with x :: a', y :: b' => (x =? y)%N && alignb f a' b' d | _, _ => false end ||
      match d with
      | O => false
      | S e =>
          match a, b with _ :: a', _ :: b' => alignb f a' b' e | _, _ => false end ||
          match a with _ :: a' => alignb f a' b e | _ => false end ||
          match b with _ :: b' => alignb f a b' e | _ => false end ||
          match a, b with x :: y :: a', u :: v :: b' => (x =? v)%N && (y =? u)%N && alignb f a' b' e | _, _ => false end
      end
  end.

Lemma alignb_sound fuel : forall a b d, alignb fuel a b d = true -> align a b d.
Proof.
  induction fuel as [|f IH]; intros a b d H.
  - destruct a, b; cbn in H; try discriminate. apply Nat.eqb_eq in H. subst. constructor.
  - cbn [alignb] in H. apply orb_true_iff in H as [H|H]; [apply orb_true_iff in H as [H|H]|].
    + destruct a, b; try discriminate. apply Nat.eqb_eq in H. subst. constructor.
    + destruct a, b; try discriminate. apply andb_true_iff in H as [E H]. apply N.eqb_eq in E. subst. apply align_same; auto.
    + destruct d as [|e]; [discriminate|].
      apply orb_true_iff in H as [H|H]; [apply orb_true_iff in H as [H|H]; [apply orb_true_iff in H as [H|H]|]|].
      * destruct a, b; try discriminate. apply align_subst; auto.
      * destruct a; try discriminate. apply align_delete; auto.
      * destruct b; try discriminate. apply align_insert; auto.
      * destruct a as [|x [|y a]]; try discriminate. destruct b as [|u [|v b]]; try discriminate.
        apply andb_true_iff in H as [H H3]. apply andb_true_iff in H as [H1 H2]. apply N.eqb_eq in H1, H2. subst.
        apply align_swap; auto.
Qed.

Lemma alignb_complete a b d : align a b d -> forall fuel, (length a + length b <= fuel)%nat -> alignb fuel a b d = true.
Proof.
  induction 1 as [|c a b d H IH|x y a b d H IH|x a b d H IH|y a b d H IH|x y a b d H IH]; intros fuel L;
    cbn [length] in L; (destruct fuel as [|f]; [try lia; reflexivity|]); cbn [alignb].
  - reflexivity.
  - rewrite N.eqb_refl, (IH f) by lia. cbn [andb]. now rewrite orb_true_r.
  - rewrite (IH f) by lia. cbn [orb]. now rewrite orb_true_r.
  - rewrite (IH f) by lia. rewrite !orb_true_r. cbn [orb]. now rewrite ?orb_true_r.
  - rewrite (IH f) by lia. rewrite !orb_true_r. cbn [orb]. now rewrite ?orb_true_r.
  - rewrite !N.eqb_refl, (IH f) by lia. cbn [andb]. now rewrite !orb_true_r.
Qed.

Lemma least_true (P : nat -> bool) k : P k = true -> exists d, P d = true /\ forall e, P e = true -> (d <= e)%nat.
Proof.
  revert P. induction k as [|k IH]; intros P H.
  - exists 0%nat. split; [assumption|lia].
  - destruct (P 0%nat) eqn:E; [exists 0%nat; split; [assumption|lia]|].
    destruct (IH (fun i => P (S i)) H) as (d & D1 & D2). exists (S d). split; [assumption|].
    intros [|e] He; [congruence|]. apply D2 in He. lia.
Qed.

Lemma dist_exists A B : exists d, dist A B d.
Proof.
  destruct (R_align A B (Nat.max (length A) (length B))) as [X _].
  destruct X as (k & _ & K); [apply R_top; lia|].
  pose (P := alignb (length A + length B) A B).
  destruct (least_true P k) as (d & D1 & D2).
  - apply alignb_complete; [assumption|lia].
  - exists d. split; [now apply alignb_sound in D1|]. intros d' H. apply D2. apply alignb_complete; [assumption|lia].
Qed.

Lemma dist_R A B d : dist A B d -> R A B d (length A) (length B) /\ forall e, R A B e (length A) (length B) -> (d <= e)%nat.
Proof.
  intros [H1 H2]. split; [apply R_align; eauto|]. intros e He. apply R_align in He as (d' & L & H). apply H2 in H. lia.
Qed.
Lemma dist_unique A B d e : dist A B d -> dist A B e -> d = e.
Proof. intros [D1 D2] [E1 E2]. apply D2 in E1. apply E2 in D1. lia. Qed.
Lemma dist_le A B d : dist A B d -> (d <= Nat.max (length A) (length B))%nat.
Proof. intros H. apply dist_R in H as [_ H]. apply H, R_top; lia. Qed.
Lemma align_zero a b : align a b 0 -> a = b.
Proof. remember 0%nat as z. induction 1; try discriminate; [reflexivity|]. now f_equal; auto. Qed.
Lemma align_self a : align a a 0.
Proof. induction a; constructor; auto. Qed.
Lemma dist_zero a b : dist a b 0 <-> a = b.
Proof.
  split; [intros [H _]; now apply align_zero|intros ->]. split; [apply align_self|lia].
Qed.

(** ** The array at the start *)
Lemma init_rows_spec inf : 0 < inf -> forall count k t k' q', - inf <= k -> k + Z.of_nat count <= inf + 1 -> inside inf k' q' ->
  tfind (key (idx inf k' q')) (init_rows inf count k t) =
  if (k <=? k') && (k' <? k + Z.of_nat count) && (q' =? Z.abs k' - 1) then Some (lo k' - 1) else tfind (key (idx inf k' q')) t.
Proof.
  intros I0 count. induction count as [|count IH]; intros k t k' q' K1 K2 IN.
  - cbn [init_rows]. destruct (Z.leb_spec k k') as [L|L]; [|reflexivity].
    rewrite (proj2 (Z.ltb_ge k' (k + Z.of_nat 0))) by lia. reflexivity.
  - cbn [init_rows]. rewrite IH by (lia || assumption).
    assert (EX : (k + inf) * (inf + 2) + Z.abs k = idx inf k (Z.abs k - 1)) by (unfold idx; lia).
    assert (IK : inside inf k (Z.abs k - 1)) by (unfold inside; lia).
    rewrite EX.
    assert (VAL : (if k <? 0 then Z.abs k - 1 else -1) = lo k - 1) by (unfold lo; destruct (Z.ltb_spec k 0); lia).
    rewrite VAL.
    destruct (Z.eq_dec k' k) as [->|NK].
    + assert (C1 : (k + 1 <=? k) = false) by (apply Z.leb_gt; lia). rewrite C1. cbn [andb].
      assert (C2 : (k <=? k) && (k <? k + Z.of_nat (S count)) = true).
      { apply andb_true_iff. split; [apply Z.leb_le|apply Z.ltb_lt]; lia. }
      rewrite C2. cbn [andb]. destruct (Z.eqb_spec q' (Z.abs k - 1)) as [->|NQ]; [apply tfind_set|].
      apply tfind_other. intros E. apply key_inj in E.
      * apply idx_inj in E; [lia|assumption|assumption].
      * apply (idx_range inf (mkArr ((2 * inf + 1) * (inf + 2)) 0 Leaf)); [reflexivity|assumption].
      * apply (idx_range inf (mkArr ((2 * inf + 1) * (inf + 2)) 0 Leaf)); [reflexivity|assumption].
    + assert (C : (k + 1 <=? k') && (k' <? k + 1 + Z.of_nat count) = (k <=? k') && (k' <? k + Z.of_nat (S count))).
      { destruct (Z.leb_spec (k + 1) k'), (Z.leb_spec k k'); lia. }
      rewrite C. destruct ((k <=? k') && (k' <? k + Z.of_nat (S count)) && (q' =? Z.abs k' - 1)); [reflexivity|].
      apply tfind_other. intros E. apply key_inj in E.
      * apply idx_inj in E; [|assumption|assumption]. destruct E. congruence.
      * apply (idx_range inf (mkArr ((2 * inf + 1) * (inf + 2)) 0 Leaf)); [reflexivity|assumption].
      * apply (idx_range inf (mkArr ((2 * inf + 1) * (inf + 2)) 0 Leaf)); [reflexivity|assumption].
Qed.

Lemma init_cell inf k q : 0 < inf -> inside inf k q ->
  cell inf (init_arr inf) k q = if q =? Z.abs k - 1 then lo k - 1 else - inf.
Proof.
  intros I0 IN. unfold cell, at_, init_arr. cbn [a_tree a_fill].
  rewrite init_rows_spec by (lia || assumption).
  assert (C : (- inf <=? k) && (k <? - inf + Z.of_nat (Z.to_nat (2 * inf + 1))) = true).
  { apply andb_true_iff. unfold inside in IN. split; [apply Z.leb_le|apply Z.ltb_lt]; lia. }
  rewrite C. cbn [andb]. destruct (q =? Z.abs k - 1); [reflexivity|]. now rewrite tfind_leaf.
Qed.

Lemma init_inv inf : 0 < inf -> Inv inf (init_arr inf).
Proof.
  intros I0. split; [reflexivity|]. intros k q IN Q. rewrite init_cell by assumption. split.
  - intros ->. now rewrite Z.eqb_refl.
  - intros L. rewrite (proj2 (Z.eqb_neq q (Z.abs k - 1))) by lia. unfold inside in IN. lia.
Qed.

(** ** What earlier comparisons leave *)
Definition stale (B : list N) (inf : Z) (a : arr) : Prop :=
  forall k q, inside inf k q -> Z.abs k <= q -> cell inf a k q = - inf \/ exists g, best g B k q (cell inf a k q).

Lemma init_stale B inf : 0 < inf -> stale B inf (init_arr inf).
Proof.
  intros I0 k q IN Q. left. rewrite init_cell by assumption. now rewrite (proj2 (Z.eqb_neq q (Z.abs k - 1))) by lia.
Qed.
Lemma changes_stale A B inf p a a' : stale B inf a -> changes A B inf p a a' -> stale B inf a'.
Proof.
  intros ST CH k q IN Q. destruct (CH k q IN Q) as [E|[E _]]; [rewrite E; now apply ST|right; eauto].
Qed.

Lemma R_max A B i j : R A B (Nat.max i j) i j.
Proof.
  assert (D : forall q i j, R A B q i j -> forall k, R A B (q + k) (i + k) (j + k)).
  { intros q i' j' H k. induction k; [now rewrite !Nat.add_0_r|]. rewrite !Nat.add_succ_r. now apply R_s. }
  assert (Dl : forall k, R A B k k 0) by (induction k; [apply R_0|now apply R_d]).
  assert (In_ : forall k, R A B k 0 k) by (induction k; [apply R_0|now apply R_i]).
  destruct (Nat.le_ge_cases i j) as [L|L].
  - rewrite Nat.max_r by assumption. pose proof (D _ _ _ (In_ (j - i)%nat) i) as X. now rewrite Nat.sub_add in X by assumption.
  - rewrite Nat.max_l by assumption. pose proof (D _ _ _ (Dl (i - j)%nat) j) as X. now rewrite Nat.sub_add in X by assumption.
Qed.

(** A comparison ends early only for a genre that is much longer than the text. *)
Lemma early_long B inf a mm p' :
  let n := Z.of_nat (length B) in
  1 <= n -> n < mm <= inf -> Inv inf a -> stale B inf a -> n - mm <= p' <= -2 ->
  cell inf a (n - mm - 1) (p' + inf + 2) = mm -> inf + 2 + n <= 2 * mm.
Proof.
  intros n N1 NM [_ IV] ST P E. set (q := p' + inf + 2) in *. set (r := n - mm - 1) in *.
  assert (IN : inside inf r q) by (unfold inside, r, q; lia).
  destruct (Z.lt_ge_cases q (Z.abs r)) as [L|L].
  - exfalso. destruct (IV r q IN L) as [L1 L2]. rewrite E in L1, L2.
    destruct (Z.eq_dec q (Z.abs r - 1)) as [Q|Q].
    + specialize (L1 Q). unfold lo, r in L1. lia.
    + specialize (L2 ltac:(lia)). unfold q in L2. lia.
  - destruct (ST r q IN L) as [X|(g & _ & Mx)]; [lia|].
    assert (QM : q <= mm).
    { destruct (Z.le_gt_cases q mm) as [|G]; [assumption|exfalso].
      assert (RE : reach g B r q (mm + 1)).
      { unfold reach, r. repeat (split; [lia|]). replace (mm + 1 + (n - mm - 1)) with n by lia.
        apply (R_mono g B (Nat.max (Z.to_nat (mm + 1)) (Z.to_nat n))); [apply R_max|lia]. }
      apply Mx in RE. rewrite E in RE. lia. }
    unfold q in QM. lia.
Qed.

(** ** One comparison *)
Definition seen (B g : list N) : Prop := (length g <= length B \/ 2 * length g < length B + 24)%nat.

Lemma distance_ok A B inf a d : dist A B d -> (1 <= length A)%nat -> (1 <= length B)%nat ->
  (length A <= 22)%nat -> inf = Z.max 22 (Z.of_nat (length B)) -> inf < 2 ^ 62 ->
  Inv inf a -> stale B inf a ->
  exists r a', distance A B inf a = Ok (r, a') /\ Inv inf a' /\ stale B inf a' /\
    (r = Z.of_nat d \/ 2 ^ 63 <= r /\ ~ seen B A).
Proof.
  intros DD A1 B1 A22 EI IB IV ST. pose proof (dist_le _ _ _ DD) as DLE. destruct (dist_R _ _ _ DD) as [H1 H2].
  assert (I0 : Z.of_nat (length A) <= inf /\ Z.of_nat (length B) <= inf) by lia. destruct I0 as [Ia Ib].
  unfold distance. cbv zeta.
  destruct (outer_start A B ltac:(lia) ltac:(lia) inf Ia Ib d H1 H2 a IV) as [(p' & P1 & -> & P3)|(a' & -> & P2 & P3 & _)];
    cbn [bind].
  - exists (p' mod 2 ^ 64), a. split; [reflexivity|]. split; [exact IV|]. split; [exact ST|]. right.
    assert (NM : Z.of_nat (length B) < Z.of_nat (length A)) by lia.
    assert (LG : inf + 2 + Z.of_nat (length B) <= 2 * Z.of_nat (length A)).
    { eapply (early_long B inf a _ p'); try eassumption; lia. }
    split.
    + assert (PB : - 2 ^ 62 < p' < 0) by (change (2 ^ 62) with 4611686018427387904 in *; lia).
      replace (p' mod 2 ^ 64) with (p' + 2 ^ 64).
      * change (2 ^ 64) with (2 ^ 63 + 2 ^ 63). change (2 ^ 62) with 4611686018427387904 in PB.
        change (2 ^ 63) with 9223372036854775808. lia.
      * apply (Z.mod_unique _ _ (-1)); [left|]; change (2 ^ 64) with 18446744073709551616;
          change (2 ^ 62) with 4611686018427387904 in PB; lia.
    + unfold seen. lia.
  - exists (Z.of_nat d mod 2 ^ 64), a'. split; [reflexivity|]. split; [exact P2|].
    split; [eapply changes_stale; eassumption|]. left. apply Z.mod_small.
    change (2 ^ 64) with 18446744073709551616. change (2 ^ 62) with 4611686018427387904 in IB. lia.
Qed.

(** ** The table *)
Lemma closest_ok B inf : (1 <= length B)%nat -> inf = Z.max 22 (Z.of_nat (length B)) -> inf < 2 ^ 62 ->
  forall table, Forall (fun g => 1 <= length g <= 22)%nat table ->
  forall i least best a, least <= inf -> Inv inf a -> stale B inf a ->
  exists least' best', closest table B inf i least best a = Ok (least', best') /\
    ((least' = least /\ best' = best /\
      forall j g e, nth_error table j = Some g -> seen B g -> dist g B e -> least <= Z.of_nat e) \/
     (exists j d, best' = Some (i + N.of_nat j)%N /\ least' = Z.of_nat d /\ least' < least /\
        first_closest (seen B) table B j d)).
Proof.
  intros B1 EI IB table. induction 1 as [|g table [G1 G2] F IH]; intros i least bst a LI IV ST.
  - exists least, bst. split; [reflexivity|]. left. split; [reflexivity|]. split; [reflexivity|].
    intros j g e H. destruct j; discriminate.
  - cbn [closest]. destruct (dist_exists g B) as [d DD].
    destruct (distance_ok g B inf a d DD G1 B1 G2 EI IB IV ST) as (r & a' & -> & IV' & ST' & RR). cbn [bind].
    destruct (Z.ltb_spec r least) as [L|L].
    + assert (ER : r = Z.of_nat d).
      { destruct RR as [|[R1 _]]; [assumption|exfalso]. change (2 ^ 62) with 4611686018427387904 in IB.
        change (2 ^ 63) with 9223372036854775808 in R1. lia. }
      destruct (IH (i + 1)%N r (Some i) a' ltac:(lia) IV' ST') as (l' & b' & -> & C).
      exists l', b'. split; [reflexivity|]. right. destruct C as [(-> & -> & C)|(j & d' & -> & E & L' & [C1 C2])].
      * exists 0%nat, d. split; [f_equal; lia|]. split; [exact ER|]. split; [exact L|]. split.
        -- exists g. auto.
        -- intros j g' e HJ SE DE. destruct j as [|j].
           ++ cbn in HJ. inversion HJ; subst. pose proof (dist_unique _ _ _ _ DD DE). subst. split; lia.
           ++ cbn in HJ. specialize (C j g' e HJ SE DE). split; lia.
      * exists (S j), d'. split; [f_equal; lia|]. split; [exact E|]. split; [lia|]. split; [exact C1|].
        intros j' g' e HJ SE DE. destruct j' as [|j'].
        -- cbn in HJ. inversion HJ; subst. pose proof (dist_unique _ _ _ _ DD DE). subst. split; lia.
        -- cbn in HJ. destruct (C2 j' g' e HJ SE DE) as [X1 X2]. split; [exact X1|]. intros ?. apply X2. lia.
    + destruct (IH (i + 1)%N least bst a' LI IV' ST') as (l' & b' & -> & C).
      exists l', b'. split; [reflexivity|]. destruct C as [(-> & -> & C)|(j & d' & -> & E & L' & [C1 C2])].
      * left. split; [reflexivity|]. split; [reflexivity|]. intros j g' e HJ SE DE. destruct j as [|j].
        -- cbn in HJ. inversion HJ; subst. pose proof (dist_unique _ _ _ _ DD DE). subst.
           destruct RR as [->|[_ NS]]; [lia|contradiction].
        -- cbn in HJ. eauto.
      * right. exists (S j), d'. split; [f_equal; lia|]. split; [exact E|]. split; [exact L'|]. split; [exact C1|].
        intros j' g' e HJ SE DE. destruct j' as [|j'].
        -- cbn in HJ. inversion HJ; subst. pose proof (dist_unique _ _ _ _ DD DE). subst.
           destruct RR as [->|[_ NS]]; [|contradiction]. split; lia.
        -- cbn in HJ. destruct (C2 j' g' e HJ SE DE) as [X1 X2]. split; [exact X1|]. intros ?. apply X2. lia.
Qed.

Lemma match_ok table B : Forall (fun g => 1 <= length g <= 22)%nat table -> (1 <= length B)%nat -> Z.of_nat (length B) < 2 ^ 62 ->
  (exists j d, match_in table B = Ok (N.of_nat j, Z.of_nat d) /\ first_closest (seen B) table B j d /\
     (d < Nat.max 22 (length B))%nat) \/
  (match_in table B = UB Uninitialised /\
   forall g e, In g table -> seen B g -> dist g B e -> (Nat.max 22 (length B) <= e)%nat).
Proof.
  intros F B1 BB. unfold match_in. cbv zeta. set (inf := Z.max 22 (Z.of_nat (length B))).
  assert (IB : inf < 2 ^ 62) by (unfold inf; change (2 ^ 62) with 4611686018427387904 in *; lia).
  destruct (closest_ok B inf B1 eq_refl IB table F 0%N inf None (init_arr inf)) as (l & b & -> & C).
  - lia.
  - apply init_inv. unfold inf. lia.
  - apply init_stale. unfold inf. lia.
  - cbn [bind]. destruct C as [(-> & -> & C)|(j & d & -> & -> & L & FC)].
    + right. split; [reflexivity|]. intros g e HG SE DE. apply In_nth_error in HG as [j HJ].
      specialize (C j g e HJ SE DE). unfold inf in C. lia.
    + left. exists j, d. cbn [N.add]. split; [reflexivity|]. split; [exact FC|]. unfold inf in L. lia.
Qed.
