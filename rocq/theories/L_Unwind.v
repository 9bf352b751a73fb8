(** * Lemmas: acquired and released. *)
From Verif Require Import Base M_Unwind S_Unwind.
#[local] Open Scope nat_scope.

Lemma times_app x a b : times x (a ++ b) = times x a + times x b.
Proof. apply count_occ_app. Qed.
Lemma times_cons x y a : times x (y :: a) = (if event_eq_dec y x then 1 else 0) + times x a.
Proof. unfold times. cbn [count_occ]. now destruct (event_eq_dec y x). Qed.
Lemma times_nil x : times x [] = 0.
Proof. reflexivity. Qed.
Lemma times_in x a : In x a <-> 0 < times x a.
Proof. unfold times. rewrite (count_occ_In event_eq_dec). lia. Qed.
Lemma times_not x a : ~ In x a <-> times x a = 0.
Proof. unfold times. now rewrite (count_occ_not_In event_eq_dec). Qed.

Lemma freed_list k r : times (Freed k) (map Freed (rev r)) = count_occ Nat.eq_dec r k.
Proof.
  induction r as [|x r IH]; [reflexivity|]. cbn [rev]. rewrite map_app, times_app, IH. cbn [map].
  rewrite times_cons, times_nil. cbn [count_occ]. destruct (event_eq_dec (Freed x) (Freed k)) as [E|E], (Nat.eq_dec x k) as [E'|E']; try lia.
  - elim E'. congruence. - elim E. congruence.
Qed.
Lemma freed_other x r : (forall k, x <> Freed k) -> times x (map Freed (rev r)) = 0.
Proof. intros H. apply times_not. intros I0. apply in_map_iff in I0 as (k & E & _). now apply (H k). Qed.

(** ** Names *)
Definition named (i : nat) (x : event) : Prop :=
  match x with Got j => j = i | Freed j => j = i | Opened _ j => j = i | Closed _ j => j = i | Raising => False end.
Definition within (n m : nat) (r : list nat) (tr : list event) : Prop :=
  n <= m /\ (forall i, In i r -> n <= i < m) /\ (forall x i, In x tr -> named i x -> n <= i < m).

Lemma within_app n m m' r r' tr tr' : within n m r tr -> within m m' r' tr' -> within n m' (r ++ r') (tr ++ tr').
Proof.
  intros (L1 & R1 & T1) (L2 & R2 & T2). repeat split; [lia|..].
  1,2: intros; match goal with H : In _ (_ ++ _) |- _ => apply in_app_iff in H as [H|H] end.
  1,2: first [apply R1 in H|apply R2 in H]; lia.
  1,2: first [apply R1 in H|apply R2 in H]; lia.
  all: intros; match goal with H : In _ (_ ++ _) |- _ => apply in_app_iff in H as [H|H] end.
  all: match goal with H : In ?x _, K : named ?i ?x |- _ => first [pose proof (T1 x i H K)|pose proof (T2 x i H K)]; lia end.
Qed.

Lemma within_free n m r tr : within n m r tr -> within n m [] (tr ++ map Freed (rev r)).
Proof.
  intros (L1 & R1 & T1). split; [exact L1|]. split; [intros i []|]. intros x i Hx Hn. apply in_app_iff in Hx as [Hx|Hx].
  - exact (T1 x i Hx Hn).
  - apply in_map_iff in Hx as (k & <- & Hk). cbn in Hn. subst k. apply R1. now apply in_rev.
Qed.

Lemma exec_within n c e r tr m : exec n c e r tr m -> within n m r tr.
Proof.
  assert (Z : forall n, within n n [] []) by (intros; repeat split; try lia; intros; contradiction).
  assert (Z' : forall n, within n n [] [Raising]).
  { intros k. split; [lia|]. split; [intros i []|]. intros x i [<-|[]] []. }
  induction 1; auto.
  - split; [lia|]. split; [intros i [<-|[]]; lia|]. intros x i [<-|[]]. cbn. lia.
  - destruct IHexec as (L & R & T). split; [lia|]. split; [intros i Hi; apply R in Hi; lia|].
    intros x i [<-|Hx] Hn; [cbn in Hn; lia|]. apply in_app_iff in Hx as [Hx|Hx]; [pose proof (T x i Hx Hn); lia|].
    destruct e; [destruct Hx as [<-|[]]; cbn in Hn; lia..|destruct Hx].
  - eapply within_app; eassumption.
  - eapply within_app; eassumption.
  - now apply within_free.
  - eapply within_app; eassumption.
  - now apply within_free.
Qed.

Lemma fresh_times n m r tr i x : within n m r tr -> named i x -> i < n \/ m <= i -> times x tr = 0.
Proof. intros (_ & _ & T) Hn Hi. apply times_not. intros Hx. pose proof (T x i Hx Hn). lia. Qed.

(** ** Strings *)
Definition ok_strings (k : nat) (r : list nat) (tr : list event) : Prop :=
  times (Got k) tr <= 1 /\ times (Freed k) tr + count_occ Nat.eq_dec r k = times (Got k) tr /\
  forall t1 t2, tr = t1 ++ t2 -> times (Freed k) t1 <= times (Got k) t1.

Lemma app_split {X} (a b t1 t2 : list X) : a ++ b = t1 ++ t2 ->
  (exists a', a = t1 ++ a') \/ (exists b1 b2, t1 = a ++ b1 /\ b = b1 ++ b2).
Proof.
  revert t1. induction a as [|x a IH]; intros t1 E; [right; exists t1, t2; now split|].
  destruct t1 as [|y t1]; [left; now exists (x :: a)|]. injection E as -> E. destruct (IH t1 E) as [(a' & ->)|(b1 & b2 & -> & ->)].
  - left. now exists a'. - right. now exists b1, b2.
Qed.

Lemma strings_app n m m' k r r' tr tr' : within n m r tr -> within m m' r' tr' ->
  ok_strings k r tr -> ok_strings k r' tr' -> ok_strings k (r ++ r') (tr ++ tr').
Proof.
  intros W W' (A1 & A2 & A3) (B1 & B2 & B3). split; [|split].
  - rewrite times_app. destruct (le_lt_dec m k) as [L|L].
    + rewrite (fresh_times n m r tr k (Got k) W eq_refl (or_intror L)). exact B1.
    + rewrite (fresh_times m m' r' tr' k (Got k) W' eq_refl (or_introl L)). lia.
  - rewrite !times_app, count_occ_app. lia.
  - intros t1 t2 E. apply app_split in E as [(a' & E)|(b1 & b2 & -> & E)].
    + exact (A3 _ _ E).
    + rewrite !times_app. specialize (B3 _ _ E). specialize (A3 tr [] (eq_sym (app_nil_r tr))). lia.
Qed.

Lemma strings_free k r tr : ok_strings k r tr -> ok_strings k [] (tr ++ map Freed (rev r)).
Proof.
  intros (A1 & A2 & A3). split; [|split].
  - rewrite times_app, freed_other by discriminate. lia.
  - rewrite !times_app, (freed_other (Got k)) by discriminate. rewrite freed_list. cbn [count_occ]. lia.
  - intros t1 t2 E. apply app_split in E as [(a' & E)|(b1 & b2 & -> & E)]; [exact (A3 _ _ E)|].
    rewrite !times_app. pose proof (freed_list k r) as F. rewrite E, times_app in F. lia.
Qed.

Lemma strings_wrap k r o i e tr : ok_strings k r tr -> ok_strings k r (Opened o i :: tr ++ closing e o i).
Proof.
  assert (C0 : forall x, (forall o' j, x <> Closed o' j) -> times x (closing e o i) = 0).
  { intros x H. apply times_not. destruct e; cbn [closing]; [intros [E|[]]; now apply (H o i)..|intros []]. }
  intros (A1 & A2 & A3). split; [|split].
  - rewrite times_cons, times_app, C0 by discriminate. destruct (event_eq_dec (Opened o i) (Got k)); [discriminate|lia].
  - rewrite !times_cons, !times_app, !C0 by discriminate.
    destruct (event_eq_dec (Opened o i) (Got k)); [discriminate|]. destruct (event_eq_dec (Opened o i) (Freed k)); [discriminate|]. lia.
  - intros t1 t2 E. destruct t1 as [|y t1]; [apply Nat.le_refl|]. cbn [app] in E. injection E as <- E. rewrite !times_cons.
    destruct (event_eq_dec (Opened o i) (Got k)); [discriminate|]. destruct (event_eq_dec (Opened o i) (Freed k)); [discriminate|].
    apply app_split in E as [(a' & E)|(b1 & b2 & -> & E)]; [exact (A3 _ _ E)|].
    rewrite !times_app. pose proof (C0 (Freed k) ltac:(discriminate)) as F. rewrite E, times_app in F.
    specialize (A3 tr [] (eq_sym (app_nil_r tr))). lia.
Qed.

Lemma exec_strings k n c e r tr m : exec n c e r tr m -> ok_strings k r tr.
Proof.
  assert (Z : ok_strings k [] []).
  { split; [apply Nat.le_0_l|]. split; [reflexivity|]. intros t1 t2 E. destruct t1; [apply Nat.le_refl|discriminate E]. }
  assert (Z' : ok_strings k [] [Raising]).
  { split; [apply Nat.le_0_l|]. split; [reflexivity|]. intros t1 t2 E. destruct t1 as [|y [|z t1]]; [apply Nat.le_refl| |discriminate E].
    injection E as <- _. apply Nat.le_refl. }
  induction 1; auto.
  - unfold ok_strings. rewrite !times_cons, !times_nil. cbn [count_occ].
    destruct (event_eq_dec (Got n) (Got k)) as [E|E], (event_eq_dec (Got n) (Freed k)) as [E2|E2], (Nat.eq_dec n k) as [E1|E1];
      try discriminate E2; try (elim E1; congruence); try (elim E; congruence).
    + split; [lia|]. split; [lia|]. intros t1 t2 E'. destruct t1 as [|y [|z t1]]; [apply Nat.le_refl| |discriminate E'].
      injection E' as <- _. rewrite !times_cons, !times_nil. destruct (event_eq_dec (Got n) (Freed k)); [discriminate|]. lia.
    + split; [lia|]. split; [lia|]. intros t1 t2 E'. destruct t1 as [|y [|z t1]]; [apply Nat.le_refl| |discriminate E'].
      injection E' as <- _. rewrite !times_cons, !times_nil. destruct (event_eq_dec (Got n) (Freed k)); [discriminate|]. lia.
  - now apply strings_wrap.
  - eapply strings_app; eauto using exec_within.
  - eapply strings_app; eauto using exec_within.
  - now apply strings_free.
  - eapply strings_app; eauto using exec_within.
  - now apply strings_free.
Qed.

Lemma covered_none n c e r tr m : exec n c e r tr m -> covered c = true -> r = [].
Proof.
  induction 1; cbn [covered]; intros C; auto; try discriminate C; try (apply andb_true_iff in C as [C1 C2]); auto.
  - now rewrite IHexec1, IHexec2.
  - now rewrite IHexec1, IHexec2.
  - now rewrite IHexec1, IHexec2.
Qed.

(** ** Objects *)
Definition ok_objects (o : holding) (k : nat) (tr : list event) : Prop :=
  times (Opened o k) tr <= 1 /\ times (Closed o k) tr <= times (Opened o k) tr /\
  (~ In Raising tr -> times (Closed o k) tr = times (Opened o k) tr) /\
  forall t1 t2, tr = t1 ++ t2 -> times (Closed o k) t1 <= times (Opened o k) t1.

Lemma objects_app n m m' o k r r' tr tr' : within n m r tr -> within m m' r' tr' ->
  ok_objects o k tr -> ok_objects o k tr' -> ok_objects o k (tr ++ tr').
Proof.
  intros W W' (A1 & A2 & A3 & A4) (B1 & B2 & B3 & B4). split; [|split; [|split]].
  - rewrite times_app. destruct (le_lt_dec m k) as [L|L].
    + rewrite (fresh_times n m r tr k (Opened o k) W eq_refl (or_intror L)). exact B1.
    + rewrite (fresh_times m m' r' tr' k (Opened o k) W' eq_refl (or_introl L)). lia.
  - rewrite !times_app. lia.
  - intros N1. rewrite in_app_iff in N1. rewrite !times_app, A3, B3 by tauto. reflexivity.
  - intros t1 t2 E. apply app_split in E as [(a' & E)|(b1 & b2 & -> & E)].
    + exact (A4 _ _ E).
    + rewrite !times_app. specialize (B4 _ _ E). lia.
Qed.

Lemma objects_free o k r tr : ok_objects o k tr -> ok_objects o k (tr ++ map Freed (rev r)).
Proof.
  intros (A1 & A2 & A3 & A4). unfold ok_objects.
  rewrite !times_app, !(freed_other _ r) by discriminate. split; [lia|]. split; [lia|]. split.
  - intros N1. rewrite in_app_iff in N1. rewrite A3 by tauto. reflexivity.
  - intros t1 t2 E. apply app_split in E as [(a' & E)|(b1 & b2 & -> & E)]; [exact (A4 _ _ E)|].
    pose proof (freed_other (Closed o k) r ltac:(discriminate)) as F. rewrite E, times_app in F. rewrite !times_app. lia.
Qed.

Lemma raised_raising n c r tr m : exec n c Raised r tr m -> In Raising tr.
Proof.
  intros H. remember Raised as e eqn:E. revert E. induction H; intros E; try discriminate E; auto using in_eq.
  - right. apply in_app_iff. left. auto.
  - apply in_app_iff. right. auto.
  - apply in_app_iff. right. auto.
  - apply in_app_iff. left. auto.
  - apply in_app_iff. right. auto.
Qed.

Lemma exec_objects o k n c e r tr m : exec n c e r tr m -> ok_objects o k tr.
Proof.
  assert (Z : ok_objects o k []).
  { split; [apply Nat.le_0_l|]. split; [reflexivity|]. split; [reflexivity|]. intros t1 t2 E. destruct t1; [apply Nat.le_refl|discriminate E]. }
  assert (Z' : forall x, (forall j, x <> Closed o j) -> (forall j, x <> Opened o j) -> ok_objects o k [x]).
  { intros x H1 H2. assert (T1 : times (Closed o k) [x] = 0) by (apply times_not; intros [E|[]]; now apply (H1 k)).
    assert (T2 : times (Opened o k) [x] = 0) by (apply times_not; intros [E|[]]; now apply (H2 k)).
    unfold ok_objects. rewrite T1, T2. repeat split; try lia. intros t1 t2 E. destruct t1 as [|y [|z t1]]; [apply Nat.le_refl| |discriminate E].
    injection E as <- _. rewrite T1. lia. }
  induction 1; auto.
  - apply Z'; discriminate. - apply Z'; discriminate. - apply Z'; discriminate. - apply Z'; discriminate.
  - pose proof (exec_within _ _ _ _ _ _ H) as W. destruct IHexec as (A1 & A2 & A3 & A4).
    destruct (event_eq_dec (Opened o0 n) (Opened o k)) as [E|E].
    + injection E as -> ->.
      assert (F1 : times (Opened o k) tr = 0) by (apply (fresh_times _ _ _ _ k _ W); [reflexivity|left; lia]).
      assert (F2 : times (Closed o k) tr = 0) by (apply (fresh_times _ _ _ _ k _ W); [reflexivity|left; lia]).
      assert (C1 : times (Opened o k) (closing e o k) = 0).
      { apply times_not. destruct e; cbn [closing]; [intros [E|[]]; discriminate E..|intros []]. }
      assert (C2 : times (Closed o k) (closing e o k) <= 1).
      { destruct e; cbn [closing]; rewrite ?times_cons, ?times_nil; destruct (event_eq_dec (Closed o k) (Closed o k)); lia. }
      unfold ok_objects. rewrite !times_cons, !times_app, F1, F2, C1.
      destruct (event_eq_dec (Opened o k) (Opened o k)) as [_|X]; [|congruence].
      destruct (event_eq_dec (Opened o k) (Closed o k)); [discriminate|].
      split; [lia|]. split; [lia|]. split.
      * intros N1. destruct e; cbn [closing]; [| |elim N1; right; apply in_app_iff; left; exact (raised_raising _ _ _ _ _ H)].
          all: rewrite times_cons, times_nil; destruct (event_eq_dec (Closed o k) (Closed o k)); [lia|congruence].
      * intros t1 t2 E. destruct t1 as [|y t1]; [apply Nat.le_refl|]. cbn [app] in E. injection E as <- E. rewrite !times_cons.
        destruct (event_eq_dec (Opened o k) (Opened o k)) as [_|X]; [|congruence].
        destruct (event_eq_dec (Opened o k) (Closed o k)); [discriminate|].
        apply (f_equal (times (Closed o k))) in E. rewrite !times_app in E. lia.
    + assert (E2 : Closed o0 n <> Closed o k) by (intros X; apply E; congruence).
      assert (C1 : forall x, x <> Closed o0 n -> times x (closing e o0 n) = 0).
      { intros x Hx. apply times_not. destruct e; cbn [closing]; [intros [X|[]]; congruence..|intros []]. }
      unfold ok_objects. rewrite !times_cons, !times_app, !C1 by congruence.
      destruct (event_eq_dec (Opened o0 n) (Opened o k)) as [X|_]; [congruence|].
      destruct (event_eq_dec (Opened o0 n) (Closed o k)); [discriminate|].
      split; [lia|]. split; [lia|]. split.
      * intros N1. rewrite A3; [reflexivity|]. intros X. apply N1. right. apply in_app_iff. now left.
      * intros t1 t2 E3. destruct t1 as [|y t1]; [apply Nat.le_refl|]. cbn [app] in E3. injection E3 as <- E3. rewrite !times_cons.
        destruct (event_eq_dec (Opened o0 n) (Opened o k)) as [X|_]; [congruence|].
        destruct (event_eq_dec (Opened o0 n) (Closed o k)); [discriminate|].
        apply app_split in E3 as [(a' & E3)|(b1 & b2 & -> & E3)]; [exact (A4 _ _ E3)|].
        rewrite !times_app. pose proof (C1 (Closed o k) ltac:(congruence)) as F. rewrite E3, times_app in F. lia.
  - eapply objects_app; eauto using exec_within.
  - eapply objects_app; eauto using exec_within.
  - now apply objects_free.
  - eapply objects_app; eauto using exec_within.
  - now apply objects_free.
Qed.

(** ** From counts to places *)
Lemma once_split x tr : times x tr = 1 -> exists a b, tr = a ++ x :: b /\ ~ In x a /\ ~ In x b.
Proof.
  intros H. assert (I0 : In x tr) by (apply times_in; lia).
  apply in_split in I0 as (a & b & ->). exists a, b. split; [reflexivity|].
  rewrite times_app, times_cons in H. destruct (event_eq_dec x x); [|congruence].
  rewrite !times_not. lia.
Qed.
Lemma once_after_of x y tr : x <> y -> times x tr = 1 -> times y tr = 1 ->
  (forall t1 t2, tr = t1 ++ t2 -> times y t1 <= times x t1) -> once_after x y tr.
Proof.
  intros D Hx Hy O. apply once_split in Hx as (a & b & -> & Na & Nb).
  specialize (O a (x :: b) eq_refl). rewrite (proj1 (times_not x a) Na) in O.
  rewrite times_app, times_cons in Hy. destruct (event_eq_dec x y); [congruence|].
  assert (Hb : times y b = 1) by lia. apply once_split in Hb as (b1 & b2 & -> & N1 & N2).
  exists a, b1, b2. split; [reflexivity|].
  assert (Ny : ~ In y a) by (apply times_not; lia).
  rewrite !in_app_iff in *. cbn [In] in *. tauto.
Qed.

(** ** After an error is raised *)
Definition quiet (tr : list event) : Prop := forall t1 t2 o k, tr = t1 ++ Raising :: t2 -> ~ In (Closed o k) t2.

Lemma quiet_none tr : ~ In Raising tr -> quiet tr.
Proof. intros N1 t1 t2 o k ->. elim N1. apply in_app_iff. right. apply in_eq. Qed.
Lemma quiet_after a b : ~ In Raising a -> quiet b -> quiet (a ++ b).
Proof.
  intros A B t1 t2 o k E. revert A E. revert t1. induction a as [|x a IH]; intros t1 A E; [exact (B _ _ o k E)|].
  destruct t1 as [|y t1]; cbn [app] in E; injection E as E1 E2.
  - elim A. rewrite E1. apply in_eq.
  - refine (IH t1 _ E2). intros X. apply A. now right.
Qed.
Lemma quiet_then a b : quiet a -> (forall o k, ~ In (Closed o k) b) -> ~ In Raising b -> quiet (a ++ b).
Proof.
  intros A B R t1 t2 o k. revert t1 A. induction a as [|x a IH]; intros t1 A E.
  - elim R. cbn [app] in E. rewrite E. apply in_app_iff. right. apply in_eq.
  - destruct t1 as [|y t1]; cbn [app] in E; injection E as E1 E2.
    + rewrite <- E2. intros X. apply in_app_iff in X as [X|X]; [|exact (B o k X)].
      refine (A [] a o k _ X). now rewrite E1.
    + refine (IH t1 _ E2). intros s1 s2 o' k' E3. apply (A (x :: s1) s2 o' k'). now rewrite E3.
Qed.

Lemma exec_quiet n c e r tr m : exec n c e r tr m -> uncaught c = true -> (e <> Raised -> ~ In Raising tr) /\ quiet tr.
Proof.
  assert (Z : quiet [Raising]).
  { intros t1 t2 o k E. destruct t1 as [|y [|z t1]]; try discriminate E. injection E as <-. intros []. }
  assert (F : forall r, ~ In Raising (map Freed (rev r))) by (intros r0 X; apply in_map_iff in X as (k & X & _); discriminate X).
  assert (F' : forall r o k, ~ In (Closed o k) (map Freed (rev r))) by (intros r0 o k X; apply in_map_iff in X as (j & X & _); discriminate X).
  assert (N0 : forall e : exit, (e <> Raised -> ~ In Raising []) /\ quiet []) by (intros; split; [intros _ []|apply quiet_none; intros []]).
  assert (N1 : (Raised <> Raised -> ~ In Raising [Raising]) /\ quiet [Raising]) by (split; [intros X; now elim X|exact Z]).
  assert (A : forall e tr tr', ((Returned <> Raised -> ~ In Raising tr) /\ quiet tr) -> ((e <> Raised -> ~ In Raising tr') /\ quiet tr') ->
    (e <> Raised -> ~ In Raising (tr ++ tr')) /\ quiet (tr ++ tr')).
  { intros e0 t t' (A1 & A2) (B1 & B2). specialize (A1 ltac:(discriminate)).
    split; [intros E X; apply in_app_iff in X as [X|X]; [exact (A1 X)|exact (B1 E X)]|]. now apply quiet_after. }
  assert (A' : forall e tr tr', ((Thrown <> Raised -> ~ In Raising tr) /\ quiet tr) -> ((e <> Raised -> ~ In Raising tr') /\ quiet tr') ->
    (e <> Raised -> ~ In Raising (tr ++ tr')) /\ quiet (tr ++ tr')).
  { intros e0 t t' (A1 & A2) B0. apply A; [split; [intros _; apply A1; discriminate|exact A2]|exact B0]. }
  induction 1; cbn [uncaught]; intros U; try discriminate U; try (apply andb_true_iff in U as [U1 U2]); auto.
  - assert (Q : ~ In Raising [Got n]) by (intros [X|[]]; discriminate X). split; [intros _; exact Q|now apply quiet_none].
  - destruct (IHexec U) as (B1 & B2). destruct e; cbn [closing].
    3:{ split; [intros X; now elim X|]. rewrite app_nil_r. change (Opened o n :: tr) with ([Opened o n] ++ tr).
        apply quiet_after; [intros [X|[]]; discriminate X|exact B2]. }
    all: assert (Q : ~ In Raising (Opened o n :: tr ++ [Closed o n]));
      [intros [X|X]; [discriminate X|]; apply in_app_iff in X as [X|[X|[]]]; [apply B1; [discriminate|exact X]|discriminate X]|].
    all: split; [intros _; exact Q|now apply quiet_none].
  - destruct (IHexec U) as (B1 & B2). split; [|apply quiet_then; auto].
    intros E X. apply in_app_iff in X as [X|X]; [exact (B1 E X)|exact (F _ X)].
Qed.
