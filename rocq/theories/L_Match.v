(** * Lemmas: the distance computed along diagonals. *)
From Coq Require Import ZArith.
From Verif Require Import Base M_Genres M_Match S_Match.
Open Scope Z_scope.

(** ** Arrays *)
Lemma tfind_leaf p : tfind p Leaf = None.
Proof. now destruct p. Qed.

Lemma tfind_set p x t : tfind p (tset p x t) = Some x.
Proof. revert t. induction p; intros [|l v r]; cbn [tset tfind]; auto. Qed.

Lemma tfind_other p q x t : p <> q -> tfind q (tset p x t) = tfind q t.
Proof.
  revert q t. induction p as [p IH|p IH|]; intros [q|q|] [|l v r] H; cbn [tset tfind]; try reflexivity;
    try (rewrite IH by congruence; rewrite ?tfind_leaf; reflexivity); try congruence; now rewrite ?tfind_leaf.
Qed.

Lemma key_inj i j : 0 <= i -> 0 <= j -> key i = key j -> i = j.
Proof. unfold key. intros Hi Hj H. apply (f_equal Zpos) in H. rewrite !Z2Pos.id in H by lia. lia. Qed.

Definition at_ (a : arr) (i : Z) : Z := match tfind (key i) (a_tree a) with Some x => x | None => a_fill a end.

Lemma rd_ok a i : 0 <= i < a_size a -> rd a i = Ok (at_ a i).
Proof.
  intros H. unfold rd. rewrite (proj2 (Z.leb_le 0 i)) by lia. now rewrite (proj2 (Z.ltb_lt i (a_size a))) by lia.
Qed.
Lemma wr_ok a i x : 0 <= i < a_size a ->
  exists a', wr a i x = Ok a' /\ a_size a' = a_size a /\ at_ a' i = x /\ (forall j, 0 <= j -> j <> i -> at_ a' j = at_ a j).
Proof.
  intros H. unfold wr. rewrite (proj2 (Z.leb_le 0 i)) by lia. rewrite (proj2 (Z.ltb_lt i (a_size a))) by lia.
  eexists. split; [reflexivity|]. split; [reflexivity|]. unfold at_; cbn [a_tree a_fill]. split.
  - now rewrite tfind_set.
  - intros j Hj N. rewrite tfind_other; [reflexivity|]. intros E. apply N. symmetry. apply key_inj; auto; lia.
Qed.

(** ** Reachable cells *)
Section Cells.
Variables A B : list N.
Notation m := (Z.of_nat (length A)).
Notation n := (Z.of_nat (length B)).

Definition mt (i j : nat) : Prop := exists c, nth_error A i = Some c /\ nth_error B j = Some c.
Definition tr (i j : nat) : Prop :=
  exists x y, nth_error A i = Some x /\ nth_error A (S i) = Some y /\ nth_error B j = Some y /\ nth_error B (S j) = Some x.

(** Cell [(i, j)] is reached with at most [p] edits; beyond the ends of the texts
    nothing matches. *)
Inductive R : nat -> nat -> nat -> Prop :=
| R_0 : R 0 0 0
| R_m p i j : R p i j -> mt i j -> R p (S i) (S j)
| R_s p i j : R p i j -> R (S p) (S i) (S j)
| R_d p i j : R p i j -> R (S p) (S i) j
| R_i p i j : R p i j -> R (S p) i (S j)
| R_t p i j : R p i j -> tr i j -> R (S p) (S (S i)) (S (S j))
| R_w p i j : R p i j -> R (S p) i j.

Lemma mt_lt i j : mt i j -> (i < length A /\ j < length B)%nat.
Proof. intros (c & H1 & H2). split; apply nth_error_Some; congruence. Qed.
Lemma tr_lt i j : tr i j -> (S i < length A /\ S j < length B)%nat.
Proof. intros (x & y & H1 & H2 & H3 & H4). split; apply nth_error_Some; congruence. Qed.

Lemma R_mono p q i j : R p i j -> (p <= q)%nat -> R q i j.
Proof. intros H L. induction L; [assumption|now apply R_w]. Qed.

(** Clipping to the texts costs nothing. *)
Lemma R_clip p i j : R p i j -> R p (Nat.min i (length A)) (Nat.min j (length B)).
Proof.
  induction 1 as [|p i j H IH M|p i j H IH|p i j H IH|p i j H IH|p i j H IH T|p i j H IH].
  - apply R_0.
  - apply mt_lt in M as L. rewrite !Nat.min_l in * by lia. now apply R_m.
  - destruct (Nat.le_gt_cases (length A) i) as [Ha|Ha], (Nat.le_gt_cases (length B) j) as [Hb|Hb].
    + rewrite (Nat.min_r (S i)), (Nat.min_r (S j)) by lia. rewrite !Nat.min_r in IH by lia. now apply R_w.
    + rewrite (Nat.min_r (S i)), (Nat.min_l (S j)) by lia. rewrite Nat.min_r, Nat.min_l in IH by lia. now apply R_i.
    + rewrite (Nat.min_l (S i)), (Nat.min_r (S j)) by lia. rewrite Nat.min_l, Nat.min_r in IH by lia. now apply R_d.
    + rewrite (Nat.min_l (S i)), (Nat.min_l (S j)) by lia. rewrite !Nat.min_l in IH by lia. now apply R_s.
  - destruct (Nat.le_gt_cases (length A) i) as [Ha|Ha].
    + rewrite (Nat.min_r (S i)) by lia. rewrite (Nat.min_r i) in IH by lia. now apply R_w.
    + rewrite (Nat.min_l (S i)) by lia. rewrite (Nat.min_l i) in IH by lia. now apply R_d.
  - destruct (Nat.le_gt_cases (length B) j) as [Hb|Hb].
    + rewrite (Nat.min_r (S j)) by lia. rewrite (Nat.min_r j) in IH by lia. now apply R_w.
    + rewrite (Nat.min_l (S j)) by lia. rewrite (Nat.min_l j) in IH by lia. now apply R_i.
  - apply tr_lt in T as L. rewrite !Nat.min_l in * by lia. now apply R_t.
  - now apply R_w.
Qed.

(** A cell beyond the ends of both texts costs one more than the corner. *)
Lemma R_beyond p i j : R p i j -> (length A < i)%nat -> (length B < j)%nat ->
  exists q, p = S q /\ R q (length A) (length B).
Proof.
  induction 1 as [|p i j H IH M|p i j H IH|p i j H IH|p i j H IH|p i j H IH T|p i j H IH]; intros Hi Hj.
  - lia.
  - apply mt_lt in M. lia.
  - exists p. split; [reflexivity|]. apply R_clip in H. rewrite !Nat.min_r in H by lia. exact H.
  - exists p. split; [reflexivity|]. apply R_clip in H. rewrite !Nat.min_r in H by lia. exact H.
  - exists p. split; [reflexivity|]. apply R_clip in H. rewrite !Nat.min_r in H by lia. exact H.
  - apply tr_lt in T. lia.
  - destruct (IH Hi Hj) as (q & -> & Q). exists (S q). split; [reflexivity|now apply R_w].
Qed.

(** The corner costs at most the longer length. *)
Lemma R_top p : (length A <= p)%nat -> (length B <= p)%nat -> R p (length A) (length B).
Proof.
  intros Ha Hb.
  assert (D : forall q i j, R q i j -> forall k, R (q + k) (i + k) (j + k)).
  { intros q i j H k. induction k; [now rewrite !Nat.add_0_r|]. rewrite !Nat.add_succ_r. now apply R_s. }
  assert (Dl : forall k, R k k 0) by (induction k; [apply R_0|now apply R_d]).
  assert (In_ : forall k, R k 0 k) by (induction k; [apply R_0|now apply R_i]).
  destruct (Nat.le_ge_cases (length A) (length B)) as [L|L].
  - apply (R_mono (length B)); [|assumption].
    pose proof (D _ _ _ (In_ (length B - length A)%nat) (length A)) as X.
    rewrite Nat.sub_add in X by assumption. exact X.
  - apply (R_mono (length A)); [|assumption].
    pose proof (D _ _ _ (Dl (length A - length B)%nat) (length B)) as X.
    rewrite Nat.sub_add in X by assumption. exact X.
Qed.

(** ** Furthest cells on diagonals *)
Definition reach (k p v : Z) : Prop := 0 <= v /\ 0 <= v + k /\ 0 <= p /\ R (Z.to_nat p) (Z.to_nat v) (Z.to_nat (v + k)).
Definition best (k p v : Z) : Prop := reach k p v /\ forall v', reach k p v' -> v' <= v.
Definition lo (k : Z) : Z := Z.max 0 (- k).

Lemma reach_sub k p v : reach k (p - 1) v -> reach k p (v + 1).
Proof.
  intros (H1 & H2 & H3 & H4). repeat (split; [lia|]).
  replace (Z.to_nat p) with (S (Z.to_nat (p - 1))) by lia. replace (Z.to_nat (v + 1)) with (S (Z.to_nat v)) by lia.
  replace (Z.to_nat (v + 1 + k)) with (S (Z.to_nat (v + k))) by lia. now apply R_s.
Qed.
Lemma reach_del k p v : reach (k + 1) (p - 1) v -> reach k p (v + 1).
Proof.
  intros (H1 & H2 & H3 & H4). repeat (split; [lia|]).
  replace (Z.to_nat p) with (S (Z.to_nat (p - 1))) by lia. replace (Z.to_nat (v + 1)) with (S (Z.to_nat v)) by lia.
  replace (v + 1 + k) with (v + (k + 1)) by lia. now apply R_d.
Qed.
Lemma reach_ins k p v : reach (k - 1) (p - 1) v -> reach k p v.
Proof.
  intros (H1 & H2 & H3 & H4). repeat (split; [lia|]).
  replace (Z.to_nat p) with (S (Z.to_nat (p - 1))) by lia.
  replace (Z.to_nat (v + k)) with (S (Z.to_nat (v + (k - 1)))) by lia. now apply R_i.
Qed.
Lemma reach_lo k p : Z.abs k <= p -> reach k p (lo k).
Proof.
  intros H. unfold lo. repeat (split; [lia|]).
  apply (R_mono (Z.abs_nat k)); [|lia].
  assert (Dl : forall q, R q q 0) by (induction q; [apply R_0|now apply R_d]).
  assert (In_ : forall q, R q 0 q) by (induction q; [apply R_0|now apply R_i]).
  destruct (Z.leb_spec 0 k).
  - replace (Z.to_nat (Z.max 0 (- k))) with 0%nat by lia. replace (Z.to_nat (Z.max 0 (- k) + k)) with (Z.abs_nat k) by lia. apply In_.
  - replace (Z.to_nat (Z.max 0 (- k))) with (Z.abs_nat k) by lia. replace (Z.to_nat (Z.max 0 (- k) + k)) with 0%nat by lia. apply Dl.
Qed.
Lemma reach_ge_lo k p v : reach k p v -> lo k <= v.
Proof. unfold lo. intros (H1 & H2 & _). lia. Qed.

Definition MT (k v : Z) : Prop := 0 <= v /\ 0 <= v + k /\ mt (Z.to_nat v) (Z.to_nat (v + k)).
Definition TR (k v : Z) : Prop := 0 <= v /\ 0 <= v + k /\ tr (Z.to_nat v) (Z.to_nat (v + k)).

Lemma reach_match k p v : reach k p v -> MT k v -> reach k p (v + 1).
Proof.
  intros (H1 & H2 & H3 & H4) (_ & _ & M). repeat (split; [lia|]).
  replace (Z.to_nat (v + 1)) with (S (Z.to_nat v)) by lia.
  replace (Z.to_nat (v + 1 + k)) with (S (Z.to_nat (v + k))) by lia. now apply R_m.
Qed.
Lemma reach_swap k p v : reach k (p - 1) v -> TR k v -> reach k p (v + 2).
Proof.
  intros (H1 & H2 & H3 & H4) (_ & _ & M). repeat (split; [lia|]).
  replace (Z.to_nat p) with (S (Z.to_nat (p - 1))) by lia.
  replace (Z.to_nat (v + 2)) with (S (S (Z.to_nat v))) by lia.
  replace (Z.to_nat (v + 2 + k)) with (S (S (Z.to_nat (v + k)))) by lia. now apply R_t.
Qed.

(** Every reachable cell comes, along matches, from one that an edit has led to. *)
Lemma reach_back k p v : reach k p v ->
  exists u, u <= v /\ (forall i, u <= i < v -> MT k i) /\
    (u = 0 /\ k = 0 \/ reach k (p - 1) (u - 1) \/ reach (k + 1) (p - 1) (u - 1) \/ reach (k - 1) (p - 1) u \/
     (reach k (p - 1) (u - 2) /\ TR k (u - 2)) \/ reach k (p - 1) u).
Proof.
  intros (H1 & H2 & H3 & H4).
  remember (Z.to_nat p) as P. remember (Z.to_nat v) as I. remember (Z.to_nat (v + k)) as J.
  revert k v p H1 H2 H3 HeqP HeqI HeqJ. induction H4 as [|p i j H IH M|p i j H IH|p i j H IH|p i j H IH|p i j H IH T|p i j H IH];
    intros k v p' H1 H2 H3 HP HI HJ.
  - exists 0. split; [lia|]. split; [intros; lia|]. left. lia.
  - destruct (IH k (v - 1) p') as (u & U1 & U2 & U3); try lia.
    exists u. split; [lia|]. split; [|exact U3]. intros x X.
    destruct (Z.eq_dec x (v - 1)) as [->|]; [|apply U2; lia].
    split; [lia|]. split; [lia|]. replace (Z.to_nat (v - 1)) with i by lia. replace (Z.to_nat (v - 1 + k)) with j by lia. exact M.
  - exists v. split; [lia|]. split; [intros; lia|]. right; left. repeat (split; [lia|]).
    replace (Z.to_nat (p' - 1)) with p by lia. replace (Z.to_nat (v - 1)) with i by lia.
    replace (Z.to_nat (v - 1 + k)) with j by lia. exact H.
  - exists v. split; [lia|]. split; [intros; lia|]. right; right; left. repeat (split; [lia|]).
    replace (Z.to_nat (p' - 1)) with p by lia. replace (Z.to_nat (v - 1)) with i by lia.
    replace (Z.to_nat (v - 1 + (k + 1))) with j by lia. exact H.
  - exists v. split; [lia|]. split; [intros; lia|]. right; right; right; left. repeat (split; [lia|]).
    replace (Z.to_nat (p' - 1)) with p by lia. replace (Z.to_nat v) with i by lia.
    replace (Z.to_nat (v + (k - 1))) with j by lia. exact H.
  - exists v. split; [lia|]. split; [intros; lia|]. right; right; right; right; left.
    assert (Ei : Z.to_nat (v - 2) = i) by lia. assert (Ej : Z.to_nat (v - 2 + k) = j) by lia.
    split; repeat (split; [lia|]); rewrite ?Ei, ?Ej; [|exact T].
    replace (Z.to_nat (p' - 1)) with p by lia. exact H.
  - exists v. split; [lia|]. split; [intros; lia|]. right; right; right; right; right. repeat (split; [lia|]).
    replace (Z.to_nat (p' - 1)) with p by lia. subst. exact H.
Qed.

Lemma reach_abs k p v : reach k p v -> Z.abs k <= p.
Proof.
  intros (H1 & H2 & H3 & H4).
  assert (X : forall P I J, R P I J -> (Z.abs (Z.of_nat J - Z.of_nat I) <= Z.of_nat P)).
  { clear. induction 1; lia. }
  apply X in H4. lia.
Qed.
End Cells.
