(** * Lemmas: one comparison. *)
From Coq Require Import ZArith.
From Verif Require Import Base M_Genres M_Match S_Match L_Match L_Match2.
Open Scope Z_scope.

(** The part of the array that a comparison relies on. *)
Definition low_ok (inf k q x : Z) : Prop := (q = Z.abs k - 1 -> x = lo k - 1) /\ (q < Z.abs k - 1 -> x <= q - inf + 1).
Definition Inv (inf : Z) (a : arr) : Prop :=
  sized inf a /\ forall k q, inside inf k q -> q < Z.abs k -> low_ok inf k q (cell inf a k q).

Lemma inv_put inf a a' k q v : Inv inf a -> put inf a a' k q v -> (q < Z.abs k -> low_ok inf k q v) -> Inv inf a'.
Proof.
  intros [S H] (P1 & P2 & P3) L. split; [exact P1|]. intros k' q' I Q.
  destruct (Z.eq_dec k' k) as [->|NK]; [destruct (Z.eq_dec q' q) as [->|NQ]|].
  - rewrite P2. now apply L.
  - rewrite P3 by congruence. now apply H.
  - rewrite P3 by congruence. now apply H.
Qed.

Section Comparison.
Variables A B : list N.
Notation m := (Z.of_nat (length A)).
Notation n := (Z.of_nat (length B)).
Notation k0 := (n - m).

Definition progress (inf p tp : Z) (a : arr) : Prop :=
  forall k q, inside inf k q -> Z.abs k <= q -> (q + Z.abs (k - k0) < p \/ q + Z.abs (k - k0) = p /\ q < tp) ->
    best A B k q (cell inf a k q).

(** What is changed, up to [p] edits. *)
Definition changes (inf p : Z) (a a' : arr) : Prop :=
  forall k q, inside inf k q -> Z.abs k <= q ->
    cell inf a' k q = cell inf a k q \/ best A B k q (cell inf a' k q) /\ q + Z.abs (k - k0) <= p.

Lemma changes_refl inf p a : changes inf p a a.
Proof. intros k q _ _. now left. Qed.
Lemma changes_trans inf p a b c : changes inf p a b -> changes inf p b c -> changes inf p a c.
Proof.
  intros H1 H2 k q I Q. destruct (H2 k q I Q) as [E|E]; [|now right]. rewrite E. now apply H1.
Qed.
Lemma changes_mono inf p p' a b : p <= p' -> changes inf p a b -> changes inf p' a b.
Proof. intros L H k q I Q. destruct (H k q I Q) as [E|[E1 E2]]; [now left|right; split; [assumption|lia]]. Qed.
Lemma changes_put inf p a a' k q v : put inf a a' k q v -> best A B k q v -> q + Z.abs (k - k0) <= p -> changes inf p a a'.
Proof.
  intros (P1 & P2 & P3) Bv L k' q' I Q.
  destruct (Z.eq_dec k' k) as [->|NK]; [destruct (Z.eq_dec q' q) as [->|NQ]|].
  - right. rewrite P2. auto.
  - left. apply P3; congruence.
  - left. apply P3; congruence.
Qed.
Lemma changes_low inf p a a' k q v : put inf a a' k q v -> q < Z.abs k -> changes inf p a a'.
Proof.
  intros (P1 & P2 & P3) L k' q' I Q. left. apply P3; [assumption|]. intros E. inversion E; subst. lia.
Qed.

Lemma progress_put inf p tp a a' x v : progress inf p tp a -> put inf a a' x tp v -> tp + Z.abs (x - k0) = p ->
  progress inf p tp a'.
Proof.
  intros H (P1 & P2 & P3) E k q I Q D. rewrite P3; [now apply H|assumption|].
  intros X. inversion X; subst. lia.
Qed.

Lemma good_of inf p tp a k q : Inv inf a -> progress inf p tp a -> inside inf k q ->
  (q + Z.abs (k - k0) < p \/ q + Z.abs (k - k0) = p /\ q < tp) -> good A B inf k q (cell inf a k q).
Proof.
  intros [_ IV] PR I D. split; [intros Q; now apply PR|].
  split; intros Q; destruct (IV k q I) as [L1 L2]; try lia; auto.
Qed.

Hypothesis Hm : 1 <= m.
Hypothesis Hn : 1 <= n.
Variable inf : Z.
Hypothesis Hmi : m <= inf.
Hypothesis Hni : n <= inf.

Lemma visit p tp a x : Inv inf a -> progress inf p tp a -> 0 <= tp <= p -> p <= Z.max m n ->
  Z.abs x <= tp -> tp + Z.abs (x - k0) = p ->
  exists a' v, fcell A B inf a x tp = Ok a' /\ put inf a a' x tp v /\ best A B x tp v.
Proof.
  intros IV PR T0 PM X1 X2.
  assert (XB : - inf + 1 <= x /\ x + 1 <= inf /\ x <= n) by lia.
  apply fcell_best; try lia; try (apply IV); try (unfold inside; lia);
    apply (good_of inf p tp); auto; try (unfold inside; lia); lia.
Qed.

Lemma inner_ok p a0 : 0 <= p -> p <= Z.max m n -> forall count tp a, tp + Z.of_nat count = p -> 0 <= tp ->
  Inv inf a -> progress inf p tp a -> changes inf p a0 a ->
  exists a', inner A B inf p count tp a = Ok a' /\ Inv inf a' /\ progress inf p p a' /\ changes inf p a0 a'.
Proof.
  intros P0 PM count. induction count as [|count IH]; intros tp a HC T0 IV PR CH.
  - cbn [inner]. exists a. replace tp with p in PR by lia. auto.
  - cbn [inner]. cbv zeta.
    (* the first diagonal *)
    assert (S1 : exists a1, (if Z.abs (k0 - (p - tp)) <=? tp then fcell A B inf a (k0 - (p - tp)) tp else Ok a) = Ok a1 /\
                 Inv inf a1 /\ progress inf p tp a1 /\ changes inf p a0 a1 /\
                 (Z.abs (k0 - (p - tp)) <= tp -> best A B (k0 - (p - tp)) tp (cell inf a1 (k0 - (p - tp)) tp))).
    { destruct (Z.leb_spec (Z.abs (k0 - (p - tp))) tp) as [L|L].
      - destruct (visit p tp a (k0 - (p - tp)) IV PR) as (a1 & v & F & PU & BV); try lia.
        exists a1. split; [exact F|]. split; [eapply inv_put; [exact IV|exact PU|lia]|].
        split; [eapply progress_put; [exact PR|exact PU|lia]|].
        split; [eapply changes_trans; [exact CH|eapply changes_put; [exact PU|exact BV|lia]]|].
        intros _. destruct PU as (_ & -> & _). exact BV.
      - exists a. split; [reflexivity|]. repeat (split; [assumption|]). lia. }
    destruct S1 as (a1 & -> & IV1 & PR1 & CH1 & B1). cbn [bind].
    assert (S2 : exists a2, (if Z.abs (k0 + (p - tp)) <=? tp then fcell A B inf a1 (k0 + (p - tp)) tp else Ok a1) = Ok a2 /\
                 Inv inf a2 /\ progress inf p (tp + 1) a2 /\ changes inf p a0 a2).
    { assert (SPLIT : forall k, tp + Z.abs (k - k0) = p -> k = k0 - (p - tp) \/ k = k0 + (p - tp)) by (intros; lia).
      destruct (Z.leb_spec (Z.abs (k0 + (p - tp))) tp) as [L|L].
      - destruct (visit p tp a1 (k0 + (p - tp)) IV1 PR1) as (a2 & v & F & PU & BV); try lia.
        exists a2. split; [exact F|]. split; [eapply inv_put; [exact IV1|exact PU|lia]|].
        pose proof (progress_put _ _ _ _ _ _ _ PR1 PU ltac:(lia)) as PR2.
        split; [|eapply changes_trans; [exact CH1|eapply changes_put; [exact PU|exact BV|lia]]].
        intros k q I Q D. destruct (Z.eq_dec q tp) as [->|NE].
        + destruct D as [D|[D _]]; [apply PR2; auto|]. destruct (SPLIT k D) as [-> | ->].
          * destruct PU as (_ & _ & P3). rewrite P3; [now apply B1|assumption|]. intros X. inversion X. lia.
          * destruct PU as (_ & -> & _). exact BV.
        + apply PR2; auto. destruct D as [D|D]; [now left|right]. lia.
      - exists a1. split; [reflexivity|]. split; [assumption|]. split; [|assumption].
        intros k q I Q D. destruct (Z.eq_dec q tp) as [->|NE].
        + destruct D as [D|[D _]]; [apply PR1; auto|]. destruct (SPLIT k D) as [-> | ->]; [now apply B1|lia].
        + apply PR1; auto. destruct D as [D|D]; [now left|right]. lia. }
    destruct S2 as (a2 & -> & IV2 & PR2 & CH2). cbn [bind].
    apply IH; auto; lia.
Qed.

(** The distance. *)
Variable D : nat.
Hypothesis HD : R A B D (length A) (length B).
Hypothesis HDmin : forall d, R A B d (length A) (length B) -> (D <= d)%nat.

Lemma D_max : Z.of_nat D <= Z.max m n.
Proof.
  assert (X : (D <= Nat.max (length A) (length B))%nat) by (apply HDmin, R_top; lia). lia.
Qed.

Lemma reach_corner p : 0 <= p -> reach A B k0 p m <-> (Z.of_nat D <= p).
Proof.
  intros P0. unfold reach. split.
  - intros (_ & _ & _ & H). replace (m + k0) with n in H by lia. rewrite !Nat2Z.id in H. apply HDmin in H. lia.
  - intros L. repeat (split; [lia|]). replace (m + k0) with n by lia. rewrite !Nat2Z.id.
    apply (R_mono A B D); [assumption|lia].
Qed.

Lemma D_abs : Z.abs k0 <= Z.of_nat D.
Proof. apply (reach_abs A B k0 (Z.of_nat D) m). apply reach_corner; lia. Qed.

Lemma best_corner p v : 0 <= p <= Z.of_nat D -> best A B k0 p v -> (v = m <-> p = Z.of_nat D).
Proof.
  intros P [Rv Mx]. split.
  - intros ->. apply reach_corner in Rv; lia.
  - intros ->. assert (L : m <= v) by (apply Mx, reach_corner; lia).
    destruct (Z.eq_dec v m) as [|NE]; [assumption|exfalso].
    destruct Rv as (V1 & V2 & V3 & V4). apply R_beyond in V4; [|lia|lia].
    destruct V4 as (q & Q1 & Q2). apply HDmin in Q2. lia.
Qed.

Lemma outer_ok fuel : forall p a0 a, k0 <= p -> 0 <= p <= Z.of_nat D -> Z.of_nat D - p < Z.of_nat fuel ->
  Inv inf a -> progress inf p 0 a -> changes inf (Z.of_nat D) a0 a ->
  exists a', outer fuel A B inf p a = Ok (Z.of_nat D, a') /\ Inv inf a' /\ changes inf (Z.of_nat D) a0 a'.
Proof.
  pose proof D_max as DM. pose proof D_abs as DA.
  induction fuel as [|fuel IH]; intros p a0 a K0 P HF IV PR CH; [lia|].
  cbn [outer]. cbv zeta.
  destruct (inner_ok p a ltac:(lia) ltac:(lia) (Z.to_nat p) 0 a) as (a1 & E1 & IV1 & PR1 & CH1);
    auto using changes_refl; try lia.
  rewrite E1. cbn [bind].
  assert (KB : - inf + 1 <= k0) by lia.
  assert (IN : inside inf k0 p) by (unfold inside; lia).
  assert (F : exists a2 v, fcell A B inf a1 k0 p = Ok a2 /\ put inf a1 a2 k0 p v /\ Inv inf a2 /\
                changes inf (Z.of_nat D) a1 a2 /\ (v = m <-> p = Z.of_nat D) /\ (Z.abs k0 <= p -> best A B k0 p v)).
  { destruct (Z.le_gt_cases (Z.abs k0) p) as [L|L].
    - destruct (visit p p a1 k0 IV1 PR1) as (a2 & v & F & PU & BV); try lia.
      exists a2, v. split; [exact F|]. split; [exact PU|]. split; [eapply inv_put; [exact IV1|exact PU|lia]|].
      split; [eapply changes_put; [exact PU|exact BV|lia]|]. split; [now apply best_corner|auto].
    - assert (PM : p <= Z.max m n) by lia. clear DM.
      destruct (fcell_low A B inf a1 k0 p) as (a2 & v & F & PU & GV); try lia; auto; try apply IV1;
        try (apply (good_of inf p p); auto; unfold inside; lia).
      exists a2, v. split; [exact F|]. split; [exact PU|]. destruct GV as (_ & G2 & G3).
      split; [eapply inv_put; [exact IV1|exact PU|intros _; split; assumption]|].
      split; [eapply changes_low; [exact PU|lia]|]. split; [|lia].
      assert (NV : v <> m).
      { destruct (Z.eq_dec p (Z.abs k0 - 1)) as [E|E]; [rewrite (G2 E); unfold lo; lia|].
        specialize (G3 ltac:(lia)). lia. }
      split; [congruence|lia]. }
  destruct F as (a2 & v & -> & PU & IV2 & CH2 & VM & BV). cbn [bind].
  assert (RD : rd a2 ((k0 + inf) * (inf + 2) + (p + 1)) = Ok v).
  { rewrite rd_ok; [|apply (idx_range inf a2 k0 p); [apply IV2|assumption]]. f_equal. apply PU. }
  rewrite RD. cbn [bind].
  assert (CH' : changes inf (Z.of_nat D) a0 a2).
  { eapply changes_trans; [exact CH|]. eapply changes_trans; [|exact CH2]. eapply changes_mono; [|exact CH1]. lia. }
  destruct (Z.eqb_spec v m) as [EV|NV].
  - apply VM in EV. subst p. exists a2. auto.
  - assert (NP : p <> Z.of_nat D) by (intros X; apply NV; now apply VM).
    apply IH; auto; try lia.
    intros k q I Q S.
    destruct (Z.eq_dec k k0) as [EK|NK]; [destruct (Z.eq_dec q p) as [EQ|NQ]|].
    + subst. destruct PU as (_ & -> & _). now apply BV.
    + destruct PU as (_ & _ & P3). rewrite P3 by congruence. apply PR1; auto. lia.
    + destruct PU as (_ & _ & P3). rewrite P3 by congruence. apply PR1; auto. lia.
Qed.

(** The rounds with a negative number of edits, for a text that is shorter. *)
Lemma outer_neg fuel : forall p a, k0 <= p < 0 -> Z.of_nat D - p < Z.of_nat fuel -> Inv inf a ->
  (exists p', p <= p' <= -2 /\ outer fuel A B inf p a = Ok (p', a) /\ cell inf a (k0 - 1) (p' + inf + 2) = m) \/
  (exists a', outer fuel A B inf p a = Ok (Z.of_nat D, a') /\ Inv inf a' /\ changes inf (Z.of_nat D) a a' /\
     forall p', p <= p' <= -2 -> cell inf a (k0 - 1) (p' + inf + 2) <> m).
Proof.
  pose proof D_abs as DA.
  induction fuel as [|fuel IH]; intros p a P HF IV; [lia|].
  cbn [outer]. cbv zeta. replace (Z.to_nat p) with 0%nat by lia. cbn [inner bind].
  destruct (fcell_neg A B inf a k0 p) as (a2 & -> & C); try lia; [apply IV|]. cbn [bind].
  destruct C as [[-> PU]|[P2 ->]].
  - assert (RD : rd a2 ((k0 + inf) * (inf + 2) + (-1 + 1)) = Ok (- inf)).
    { rewrite rd_ok; [|apply (idx_range inf a2 k0 (-1)); [apply PU|unfold inside; lia]]. f_equal. apply PU. }
    rewrite RD. cbn [bind]. rewrite (proj2 (Z.eqb_neq (- inf) m)) by lia. right.
    assert (IV2 : Inv inf a2).
    { eapply inv_put; [exact IV|exact PU|]. intros _. split; lia. }
    destruct (outer_ok fuel (-1 + 1) a a2) as (a' & O1 & O2 & O3); auto; try lia.
    + intros k q I Q S. lia.
    + eapply changes_low; [exact PU|lia].
    + exists a'. split; [exact O1|]. split; [exact O2|]. split; [exact O3|]. intros; lia.
  - assert (IX : (k0 + inf) * (inf + 2) + (p + 1) = idx inf (k0 - 1) (p + inf + 2)) by (unfold idx; lia).
    assert (IN : inside inf (k0 - 1) (p + inf + 2)) by (unfold inside; lia).
    rewrite IX, rd_ok by (apply idx_range; [apply IV|assumption]). cbn [bind]. fold (cell inf a (k0 - 1) (p + inf + 2)).
    destruct (Z.eqb_spec (cell inf a (k0 - 1) (p + inf + 2)) m) as [E|E].
    + left. exists p. split; [lia|]. auto.
    + destruct (IH (p + 1) a) as [(p' & Q1 & Q2 & Q3)|(a' & Q1 & Q2 & Q3 & Q4)]; auto; try lia.
      * left. exists p'. split; [lia|auto].
      * right. exists a'. split; [exact Q1|]. split; [exact Q2|]. split; [exact Q3|].
        intros p' HP. destruct (Z.eq_dec p' p) as [->|]; [exact E|apply Q4; lia].
Qed.

Lemma outer_start a : Inv inf a ->
  let fuel := Z.to_nat (4 * inf + 8) in
  (exists p', k0 <= p' <= -2 /\ outer fuel A B inf k0 a = Ok (p', a) /\ cell inf a (k0 - 1) (p' + inf + 2) = m) \/
  (exists a', outer fuel A B inf k0 a = Ok (Z.of_nat D, a') /\ Inv inf a' /\ changes inf (Z.of_nat D) a a' /\
     forall p', k0 <= p' <= -2 -> cell inf a (k0 - 1) (p' + inf + 2) <> m).
Proof.
  intros IV fuel. pose proof D_max as DM. pose proof D_abs as DA. destruct (Z.lt_ge_cases k0 0) as [L|L].
  - apply outer_neg; auto; unfold fuel; lia.
  - right. destruct (outer_ok fuel k0 a a) as (a' & O1 & O2 & O3); auto using changes_refl; try (unfold fuel; lia).
    + intros k q I Q S. exfalso. clear - Q S L. lia.
    + exists a'. repeat (split; [assumption|]). intros; lia.
Qed.
End Comparison.
