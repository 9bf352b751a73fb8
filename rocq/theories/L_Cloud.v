(** * Lemmas: tag clouds. *)
From Verif Require Import Base M_Ints S_Ints M_Payload M_Url M_Cloud S_Url S_Cloud L_Ints L_Payload L_Url.

(** ** The order *)
Lemma bcmp_eq a b : bcmp a b = Eq <-> a = b.
Proof.
  revert b. induction a as [|x a IH]; intros [|y b]; cbn; split; intros H; try congruence; try discriminate.
  - destruct (N.compare_spec x y); try discriminate. apply IH in H. congruence.
  - injection H as -> ->. rewrite N.compare_refl. now apply IH.
Qed.

Lemma bcmp_lt a b : bcmp a b = Lt <-> lex_lt a b.
Proof.
  revert b. induction a as [|x a IH]; intros [|y b]; cbn; split; intros H; try discriminate;
    try (now inversion H); try apply lex_nil; try reflexivity.
  - destruct (N.compare_spec x y); [subst; apply lex_tail, IH, H|now apply lex_head|discriminate].
  - inversion H as [| ? ? ? ? L | ? ? ? L]; subst.
    + now apply N.compare_lt_iff in L as ->.
    + rewrite N.compare_refl. now apply IH.
Qed.

Lemma bcmp_anti a b : bcmp b a = CompOpp (bcmp a b).
Proof.
  revert b. induction a as [|x a IH]; intros [|y b]; cbn; auto.
  rewrite (N.compare_antisym x y). destruct (x ?= y); cbn; auto.
Qed.

Lemma bcmp_gt a b : bcmp a b = Gt <-> lex_lt b a.
Proof.
  rewrite <- bcmp_lt, (bcmp_anti a b). destruct (bcmp a b); cbn; split; congruence.
Qed.

Lemma lex_trans a b c : lex_lt a b -> lex_lt b c -> lex_lt a c.
Proof.
  intros H. revert c. induction H as [b l|a b l m H|a l m H IH]; intros c Hc; inversion Hc; subst.
  - constructor.
  - constructor.
  - apply lex_head. lia.
  - now apply lex_head.
  - now apply lex_head.
  - now apply lex_tail, IH.
Qed.

Lemma lex_irrefl a : ~ lex_lt a a.
Proof. rewrite <- bcmp_lt. rewrite (proj2 (bcmp_eq a a) eq_refl). discriminate. Qed.

Lemma bcmp_spec a b : CompareSpec (a = b) (lex_lt a b) (lex_lt b a) (bcmp a b).
Proof.
  destruct (bcmp a b) eqn:E; constructor; [now apply bcmp_eq|now apply bcmp_lt|now apply bcmp_gt].
Qed.

(** ** Sets *)
Lemma sinsert_in v s x : In x (sinsert v s) <-> x = v \/ In x s.
Proof.
  induction s as [|y s IH]; cbn; [intuition|].
  destruct (bcmp_spec v y) as [->|H|H]; cbn.
  - intuition.
  - intuition.
  - rewrite IH. intuition.
Qed.

Lemma sinsert_set v s : is_set s -> is_set (sinsert v s).
Proof.
  unfold is_set. induction 1 as [|y s Hs IH Hy]; cbn; [repeat constructor|].
  destruct (bcmp_spec v y) as [->|H|H].
  - now constructor.
  - constructor; [now constructor|]. constructor; [assumption|].
    rewrite Forall_forall in Hy |- *. intros x Hx. eapply lex_trans; eauto.
  - constructor; [assumption|]. rewrite Forall_forall in Hy |- *. intros x Hx.
    apply sinsert_in in Hx as [->|Hx]; auto.
Qed.

Lemma sinserts_in vs s x : In x (fold_left (fun s v => sinsert v s) vs s) <-> In x vs \/ In x s.
Proof.
  revert s. induction vs as [|v vs IH]; intros s; cbn; [intuition|].
  rewrite IH, sinsert_in. intuition.
Qed.

Lemma sinserts_set vs s : is_set s -> is_set (fold_left (fun s v => sinsert v s) vs s).
Proof.
  revert s. induction vs as [|v vs IH]; intros s Hs; cbn; [assumption|]. now apply IH, sinsert_set.
Qed.

Lemma sinsert_last v s : Forall (fun x => lex_lt x v) s -> sinsert v s = s ++ [v].
Proof.
  induction 1 as [|x s Hx _ IH]; cbn; [reflexivity|].
  apply bcmp_gt in Hx as ->. now rewrite IH.
Qed.

Lemma set_ext s t : is_set s -> is_set t -> (forall x, In x s <-> In x t) -> s = t.
Proof.
  unfold is_set. intros Hs. revert t. induction Hs as [|x s Hs IH Hx]; intros t Ht E.
  - destruct t as [|y t]; [reflexivity|]. destruct (proj2 (E y)). now left.
  - destruct Ht as [|y t Ht Hy]; [destruct (proj1 (E x)); now left|].
    rewrite Forall_forall in Hx, Hy.
    assert (x = y) as <-.
    { destruct (proj1 (E x) ltac:(now left)) as [|H1]; [auto|].
      destruct (proj2 (E y) ltac:(now left)) as [|H2]; [auto|].
      destruct (lex_irrefl x). apply lex_trans with y; auto. }
    f_equal. apply IH; [assumption|]. intros z. split; intros Hz.
    + destruct (proj1 (E z) (or_intror Hz)) as [<-|]; [|assumption].
      destruct (lex_irrefl x). auto.
    + destruct (proj2 (E z) (or_intror Hz)) as [<-|]; [|assumption].
      destruct (lex_irrefl x). auto.
Qed.

(** ** Maps *)
Definition keys_sorted (m : cmap) := StronglySorted (fun a b => lex_lt (fst a) (fst b)) m.

Lemma mfind_in k s m : keys_sorted m -> (mfind k m = Some s <-> In (k, s) m).
Proof.
  unfold keys_sorted. induction 1 as [|[x t] m Hm IH Hx]; cbn; [split; [discriminate|intros []]|].
  destruct (bcmp_spec k x) as [->|H|H].
  - split; [intros [= ->]; now left|]. intros [[= ->]|Hi]; [reflexivity|].
    rewrite Forall_forall in Hx. destruct (lex_irrefl x). exact (Hx _ Hi).
  - rewrite IH. split; [now right|]. intros [[= -> ->]|Hi]; [destruct (lex_irrefl _ H)|assumption].
  - rewrite IH. split; [now right|]. intros [[= -> ->]|Hi]; [destruct (lex_irrefl _ H)|assumption].
Qed.

Lemma mfind_none k m : keys_sorted m -> (mfind k m = None <-> ~ keyed m k).
Proof.
  intros H. split.
  - intros E [s Hs]. apply mfind_in in Hs; [congruence|assumption].
  - intros E. destruct (mfind k m) as [s|] eqn:F; [|reflexivity].
    apply mfind_in in F; [|assumption]. destruct E. now exists s.
Qed.

Lemma mset_in k s m x t : keys_sorted m ->
  (In (x, t) (mset k s m) <-> (x = k /\ t = s) \/ (x <> k /\ In (x, t) m)).
Proof.
  unfold keys_sorted. induction 1 as [|[y u] m Hm IH Hy]; cbn.
  - split; [intros [[= -> ->]|[]]; auto|]. intros [[-> ->]|[_ []]]. now left.
  - rewrite Forall_forall in Hy. destruct (bcmp_spec k y) as [->|H|H]; cbn.
    + split.
      * intros [[= -> ->]|Hi]; [auto|]. right. split; [|now right].
        intros ->. destruct (lex_irrefl y). exact (Hy _ Hi).
      * intros [[-> ->]|[Hn [[= -> ->]|Hi]]]; [now left|congruence|now right].
    + split.
      * intros [[= -> ->]|Hi]; [auto|]. right. split; [|exact Hi].
        intros ->. destruct Hi as [[= -> ->]|Hi]; [destruct (lex_irrefl _ H)|].
        apply Hy in Hi. cbn in Hi. destruct (lex_irrefl k). eapply lex_trans; eauto.
      * intros [[-> ->]|[Hn Hi]]; auto.
    + rewrite IH. split.
      * intros [[= -> ->]|[E|[E1 E2]]]; auto. right. split; [|now left].
        intros ->. destruct (lex_irrefl _ H).
      * intros [E|[E1 [E2|E2]]]; auto.
Qed.

Lemma mset_sorted k s m : keys_sorted m -> keys_sorted (mset k s m).
Proof.
  unfold keys_sorted. induction 1 as [|[y u] m Hm IH Hy]; cbn; [repeat constructor|].
  destruct (bcmp_spec k y) as [->|H|H].
  - now constructor.
  - constructor; [now constructor|]. constructor; [assumption|].
    rewrite Forall_forall in Hy |- *. intros x Hx. eapply lex_trans; [exact H|]. now apply Hy.
  - constructor; [assumption|]. rewrite Forall_forall in Hy |- *. intros [x t] Hx.
    apply mset_in in Hx; [|assumption]. destruct Hx as [[-> ->]|[_ Hx]]; [assumption|now apply Hy].
Qed.

Lemma mset_map k s m : is_map m -> is_set s -> is_map (mset k s m).
Proof.
  intros [H1 H2] Hs. split; [now apply mset_sorted|].
  rewrite Forall_forall in H2 |- *. intros [x t] Hx. apply mset_in in Hx; [|assumption].
  destruct Hx as [[-> ->]|[_ Hx]]; [assumption|]. now apply H2 in Hx.
Qed.

Lemma mset_last k s m : Forall (fun kv => lex_lt (fst kv) k) m -> mset k s m = m ++ [(k, s)].
Proof.
  induction 1 as [|[y u] m Hy _ IH]; cbn; [reflexivity|]. cbn in Hy.
  apply bcmp_gt in Hy as ->. now rewrite IH.
Qed.

Lemma mset_keyed k s m x : keys_sorted m -> (keyed (mset k s m) x <-> x = k \/ keyed m x).
Proof.
  intros H. unfold keyed. split.
  - intros [t Ht]. apply mset_in in Ht as [[-> ->]|[Hn Ht]]; eauto.
  - intros [->|[t Ht]]; [exists s; apply mset_in; auto|].
    destruct (bcmp_spec x k) as [->|L|L]; [exists s|exists t|exists t]; apply mset_in; auto;
      right; split; auto; intros ->; destruct (lex_irrefl _ L).
Qed.

Lemma mset_paired k s m x v : keys_sorted m ->
  (paired (mset k s m) x v <-> (x = k /\ In v s) \/ (x <> k /\ paired m x v)).
Proof.
  intros H. unfold paired. split.
  - intros (t & Ht & Hv). apply mset_in in Ht as [[-> ->]|[Hn Ht]]; eauto.
  - intros [[-> Hv]|[Hn (t & Ht & Hv)]].
    + exists s. split; [apply mset_in; auto|assumption].
    + exists t. split; [apply mset_in; auto|assumption].
Qed.

Lemma map_fun k s t m : keys_sorted m -> In (k, s) m -> In (k, t) m -> s = t.
Proof. intros H Hs Ht. apply mfind_in in Hs, Ht; try assumption. congruence. Qed.

Lemma minsert_keyed k vs m x : is_map m -> (keyed (minsert k vs m) x <-> x = k \/ keyed m x).
Proof. intros [H _]. apply mset_keyed, H. Qed.

Lemma minsert_paired k vs m x v : is_map m ->
  (paired (minsert k vs m) x v <-> (x = k /\ In v vs) \/ paired m x v).
Proof.
  intros [H _]. unfold minsert. rewrite mset_paired by assumption. rewrite sinserts_in.
  destruct (mfind k m) as [s|] eqn:E.
  - apply mfind_in in E; [|assumption]. split.
    + intros [[-> [Hv|Hv]]|[_ Hp]]; auto. right. exists s. auto.
    + intros [[-> Hv]|Hp]; auto.
      destruct (bcmp_spec x k) as [->|L|L].
      * left. split; auto. right. destruct Hp as (t & Ht & Hv). now rewrite (map_fun k s t m).
      * right. split; auto. intros ->. destruct (lex_irrefl _ L).
      * right. split; auto. intros ->. destruct (lex_irrefl _ L).
  - apply mfind_none in E; [|assumption]. split.
    + intros [[-> [Hv|[]]]|[_ Hp]]; auto.
    + intros [[-> Hv]|Hp]; auto. right. split; auto. intros ->. apply E.
      destruct Hp as (t & Ht & _). now exists t.
Qed.

Lemma minsert_map k vs m : is_map m -> is_map (minsert k vs m).
Proof.
  intros H. apply mset_map; [assumption|]. apply sinserts_set.
  destruct (mfind k m) as [s|] eqn:E; [|constructor].
  destruct H as [H1 H2]. apply mfind_in in E; [|assumption].
  rewrite Forall_forall in H2. exact (H2 _ E).
Qed.

Lemma map_ext m n : is_map m -> is_map n ->
  (forall k, keyed m k <-> keyed n k) -> (forall k v, paired m k v <-> paired n k v) -> m = n.
Proof.
  intros [Hm Fm] [Hn Fn] EK EV.
  assert (EI : forall kv, In kv m <-> In kv n).
  { assert (G : forall m n, keys_sorted m -> keys_sorted n ->
      Forall (fun kv => is_set (snd kv)) m -> Forall (fun kv => is_set (snd kv)) n ->
      (forall k, keyed m k <-> keyed n k) -> (forall k v, paired m k v <-> paired n k v) ->
      forall kv, In kv m -> In kv n).
    { clear. intros m n Hm Hn Fm Fn EK EV [k s] Hi.
      destruct (proj1 (EK k) (ex_intro _ s Hi)) as [t Ht].
      replace s with t; [assumption|].
      rewrite Forall_forall in Fm, Fn. apply set_ext; [exact (Fn _ Ht)|exact (Fm _ Hi)|].
      intros v. split; intros Hv.
      - destruct (proj2 (EV k v)) as (s' & H1 & H2); [now exists t|].
        now rewrite (map_fun k s s' m).
      - destruct (proj1 (EV k v)) as (s' & H1 & H2); [now exists s|].
        now rewrite (map_fun k t s' n). }
    intros kv. split; apply G; auto; intros; symmetry; auto. }
  clear EK EV Fm Fn. revert n Hn EI. induction Hm as [|x m Hm IH Hx]; intros n Hn EI.
  - destruct n as [|y n]; [reflexivity|]. destruct (proj2 (EI y)). now left.
  - destruct Hn as [|y n Hn Hy]; [destruct (proj1 (EI x)); now left|].
    rewrite Forall_forall in Hx, Hy.
    assert (x = y) as <-.
    { destruct (proj1 (EI x) ltac:(now left)) as [|H1]; [auto|].
      destruct (proj2 (EI y) ltac:(now left)) as [|H2]; [auto|].
      destruct (lex_irrefl (fst x)). apply lex_trans with (fst y); auto. }
    f_equal. apply IH; [assumption|]. intros z. split; intros Hz.
    + destruct (proj1 (EI z) (or_intror Hz)) as [<-|]; [|assumption].
      destruct (lex_irrefl (fst x)). auto.
    + destruct (proj2 (EI z) (or_intror Hz)) as [<-|]; [|assumption].
      destruct (lex_irrefl (fst x)). auto.
Qed.
