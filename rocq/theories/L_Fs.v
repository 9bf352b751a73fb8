(** * Lemmas: paths and the file system. *)
From Verif Require Import Base M_Fs M_Tagset S_Tagset.

(** ** Nodes *)
Lemma key_eqb_spec x y : reflect (x = y) (key_eqb x y).
Proof.
  revert y. induction x as [|a x IH]; intros [|b y]; cbn [key_eqb]; try (constructor; congruence).
  destruct (bytes_eqb_spec a b) as [->|H]; cbn [andb]; [|constructor; congruence].
  destruct (IH y) as [->|H]; constructor; congruence.
Qed.
Lemma key_eqb_refl x : key_eqb x x = true.
Proof. now destruct (key_eqb_spec x x). Qed.
Lemma key_eqb_neq x y : x <> y -> key_eqb x y = false.
Proof. intros H. now destruct (key_eqb_spec x y). Qed.

Lemma find_del_same k fs : find_node k (del_node k fs) = None.
Proof.
  induction fs as [|[k' n] r IH]; [reflexivity|]. cbn [del_node filter fst].
  destruct (key_eqb_spec k k') as [->|H]; cbn [negb]; [exact IH|]. cbn [find_node].
  rewrite key_eqb_neq by exact H. exact IH.
Qed.
Lemma find_del_other k k' fs : k <> k' -> find_node k (del_node k' fs) = find_node k fs.
Proof.
  intros Hk. induction fs as [|[k0 n] r IH]; [reflexivity|]. cbn [del_node filter fst find_node].
  destruct (key_eqb_spec k' k0) as [->|H]; cbn [negb].
  - rewrite key_eqb_neq by congruence. exact IH.
  - cbn [find_node]. destruct (key_eqb k k0); [reflexivity|exact IH].
Qed.
Lemma find_set_same k n fs : find_node k (set_node k n fs) = Some n.
Proof. unfold set_node. cbn [find_node]. now rewrite key_eqb_refl. Qed.
Lemma find_set_other k k' n fs : k <> k' -> find_node k (set_node k' n fs) = find_node k fs.
Proof. intros H. unfold set_node. cbn [find_node]. rewrite key_eqb_neq by exact H. now apply find_del_other. Qed.
Lemma find_in k fs n : find_node k fs = Some n -> In k (map fst fs).
Proof.
  induction fs as [|[k' n'] r IH]; [discriminate|]. cbn [find_node map fst].
  destruct (key_eqb_spec k k') as [->|H]; [left; reflexivity|right; auto].
Qed.

(** ** Paths *)
Lemma components_app acc x y : components acc (x ++ 47 :: y) = components acc x ++ components [] y.
Proof.
  revert acc. induction x as [|c x IH]; intros acc; [reflexivity|]. cbn [app components].
  destruct (c =? 47); [cbn [app]; now rewrite IH|apply IH].
Qed.
Lemma components_name acc n : ~ In 47 n -> components acc n = [rev acc ++ n].
Proof.
  revert acc. induction n as [|c n IH]; intros acc H; cbn [components]; [now rewrite app_nil_r|].
  destruct (N.eqb_spec c 47) as [->|Hc]; [elim H; now left|].
  rewrite IH by (intros Hi; apply H; now right). cbn [rev]. now rewrite <- app_assoc.
Qed.
Lemma walk_name s n : plain_name n -> walk s n = n :: s.
Proof.
  intros (_ & H0 & H1 & H2). unfold walk. destruct n as [|a [|b [|c r]]]; [congruence|..]; repeat
    match goal with |- context [match ?x with _ => _ end] => is_var x; destruct x; try reflexivity end; congruence.
Qed.
Lemma resolve_spelled d n : plain_name n -> resolve_abs (spelled d n) = resolve_abs d ++ [n].
Proof.
  intros H. unfold resolve_abs, spelled. cbn [app]. rewrite components_app, fold_left_app.
  rewrite components_name by apply H. cbn [rev app fold_left]. rewrite walk_name by exact H. reflexivity.
Qed.
Lemma entry_of_spec d k n : entry_of d k = Some n <-> k = d ++ [n].
Proof.
  revert k. induction d as [|a d IH]; intros k.
  - cbn [entry_of app]. destruct k as [|b [|c k]]; split; intros H; try discriminate; congruence.
  - destruct k as [|b k]; cbn [entry_of app]; [split; discriminate|].
    destruct (bytes_eqb_spec a b) as [->|H]; [rewrite IH|]; split; intros H'; try discriminate; try congruence.
Qed.

Lemma in_entries fs dir k n : In k (map fst fs) -> k = resolve_abs dir ++ [n] ->
  In (join dir n) (directory_entries fs dir).
Proof.
  intros Hi Hk. unfold directory_entries. induction fs as [|[k0 n0] r IH]; [elim Hi|]. cbn [map fst fold_right] in *.
  destruct Hi as [<-|Hi].
  - apply <- entry_of_spec in Hk. rewrite Hk. now left.
  - destruct (entry_of _ _); [right|]; auto.
Qed.
Lemma entries_in fs dir s : In s (directory_entries fs dir) -> exists k n, In k (map fst fs) /\
  k = resolve_abs dir ++ [n] /\ s = join dir n.
Proof.
  unfold directory_entries. induction fs as [|[k0 n0] r IH]; cbn [fold_right map fst]; [intros []|].
  destruct (entry_of (resolve_abs dir) k0) as [n|] eqn:E.
  - intros [<-|H].
    + exists k0, n. apply entry_of_spec in E. repeat split; auto. now left.
    + destruct (IH H) as (k & n' & A & ? & ?). exists k, n'. repeat split; auto. now right.
  - intros H. destruct (IH H) as (k & n' & A & ? & ?). exists k, n'. repeat split; auto. now right.
Qed.

Lemma until_slash_app r x : ~ In 47 r -> until_slash (r ++ 47 :: x) = r.
Proof.
  induction r as [|c r IH]; intros H; cbn [app until_slash]; [now rewrite N.eqb_refl|].
  destruct (N.eqb_spec c 47) as [->|Hc]; [elim H; now left|]. rewrite IH; [reflexivity|].
  intros Hi. apply H. now right.
Qed.
Lemma rev_spelled d n : rev (spelled d n) = rev n ++ 47 :: rev d.
Proof. unfold spelled. rewrite rev_app_distr. cbn [app rev]. rewrite <- app_assoc. reflexivity. Qed.
Lemma filename_spelled d n : ~ In 47 n -> filename (spelled d n) = n.
Proof.
  intros H. unfold filename. rewrite rev_spelled, until_slash_app by (now rewrite <- in_rev). apply rev_involutive.
Qed.
Definition dir_of (d : bytes) : bytes := match d with [] => [47] | _ => d end.
Lemma last_rev (d : bytes) x : last (d ++ [x]) 0 = x.
Proof. induction d as [|a d IH]; [reflexivity|]. cbn [app last]. destruct (d ++ [x]) eqn:E; [|exact IH]. now destruct d. Qed.
Lemma strip_rev_dir d : dir_path d -> strip_slashes (rev d) = rev d.
Proof.
  intros [->|[_ H]]; [reflexivity|]. destruct (rev d) as [|c r] eqn:E; [reflexivity|].
  cbn [strip_slashes]. assert (d = rev r ++ [c]) as ->.
  { rewrite <- (rev_involutive d), E. reflexivity. }
  rewrite last_rev in H. destruct (N.eqb_spec c 47); [contradiction|reflexivity].
Qed.
Lemma parent_spelled d n : ~ In 47 n -> dir_path d -> parent_path (spelled d n) = dir_of d.
Proof.
  intros H Hd. unfold parent_path. rewrite rev_spelled, until_slash_app by (now rewrite <- in_rev).
  cbv zeta. rewrite skipn_app, skipn_all, Nat.sub_diag. cbn [skipn app strip_slashes N.eqb Pos.eqb].
  change (47 =? 47) with true. cbv iota. rewrite strip_rev_dir by exact Hd.
  destruct (rev d) as [|c r] eqn:E.
  - assert (d = []) as -> by (rewrite <- (rev_involutive d), E; reflexivity). reflexivity.
  - rewrite <- E, rev_involutive. unfold dir_of. destruct d; [discriminate|reflexivity].
Qed.
Lemma join_dir d n : dir_path d -> join (dir_of d) n = spelled d n.
Proof.
  intros [->|[_ H]]; [reflexivity|]. unfold dir_of, spelled. destruct d as [|a d]; [reflexivity|].
  unfold join. destruct (rev (a :: d)) as [|c r] eqn:E.
  - apply (f_equal (@rev N)) in E. rewrite rev_involutive in E. discriminate.
  - assert (E' : a :: d = rev r ++ [c]) by (rewrite <- (rev_involutive (a :: d)), E; reflexivity).
    rewrite E' in H. rewrite last_rev in H. destruct (N.eqb_spec c 47); [contradiction|reflexivity].
Qed.
Lemma resolve_dir_of d : resolve_abs (dir_of d) = resolve_abs d.
Proof. now destruct d. Qed.
Lemma absolute_spelled cwd d n : dir_path d -> absolute cwd (spelled d n) = spelled d n.
Proof.
  intros [->|[H _]]; [reflexivity|]. unfold spelled. destruct d as [|a d]; [reflexivity|]. cbn in H. subst a. reflexivity.
Qed.

Lemma no_dot_last x r : ~ In 46 x -> last_dot (x ++ 46 :: r) = Some (x ++ [46], r).
Proof.
  induction x as [|c x IH]; intros H; cbn [app last_dot]; [reflexivity|].
  destruct (N.eqb_spec c 46) as [->|Hc]; [elim H; now left|]. rewrite IH; [reflexivity|].
  intros Hi. apply H. now right.
Qed.
Lemma split_ext_join name : fst (split_ext name) ++ snd (split_ext name) = name.
Proof.
  unfold split_ext. destruct (_ || _); [apply app_nil_r|].
  destruct (last_dot (rev name)) as [[e s]|] eqn:E; [|apply app_nil_r].
  destruct s as [|a s]; [apply app_nil_r|]. cbn [fst snd].
  assert (H : forall r e s, last_dot r = Some (e, s) -> r = e ++ s).
  { clear. induction r as [|c r IH]; intros e s H; cbn [last_dot] in H; [discriminate|].
    destruct (N.eqb_spec c 46) as [->|Hc]; [now injection H as <- <-|].
    destruct (last_dot r) as [[e' s']|]; [|discriminate]. injection H as <- <-. cbn [app]. f_equal. now apply IH. }
  apply H in E. rewrite <- rev_app_distr, <- E. apply rev_involutive.
Qed.
Lemma ext_of_numbered d n ds : ~ In 47 n -> n <> [] -> ~ In 46 ds -> ds <> [] -> ~ In 47 ds ->
  extension (spelled d n ++ [46] ++ ds) = 46 :: ds.
Proof.
  intros Hn Hn0 Hd Hd0 Hd47. unfold extension.
  replace (spelled d n ++ [46] ++ ds) with (spelled d (n ++ [46] ++ ds))
    by (unfold spelled; rewrite <- !app_assoc; reflexivity).
  rewrite filename_spelled.
  2:{ rewrite !in_app_iff. cbn. intros [?|[[?|[]]|?]]; auto. discriminate. }
  unfold split_ext.
  assert (F : bytes_eqb (n ++ [46] ++ ds) [46] || bytes_eqb (n ++ [46] ++ ds) [46; 46] = false).
  { destruct n as [|a n]; [congruence|]. destruct ds as [|b ds]; [congruence|].
    apply orb_false_iff. split.
    - destruct (bytes_eqb_spec ((a :: n) ++ [46] ++ b :: ds) [46]) as [E|]; [|reflexivity].
      apply (f_equal (@List.length N)) in E. rewrite app_length in E. cbn in E. lia.
    - destruct (bytes_eqb_spec ((a :: n) ++ [46] ++ b :: ds) [46; 46]) as [E|]; [|reflexivity].
      apply (f_equal (@List.length N)) in E. rewrite app_length in E. cbn in E. lia. }
  rewrite F. rewrite rev_app_distr. cbn [app rev]. rewrite <- app_assoc. cbn [app].
  rewrite no_dot_last by (now rewrite <- in_rev).
  destruct (rev n) as [|c r] eqn:E.
  - apply (f_equal (@rev N)) in E. rewrite rev_involutive in E. contradiction.
  - cbn [snd]. rewrite rev_app_distr, rev_involutive. reflexivity.
Qed.

(** ** Decimal numbers *)
Lemma decimal_value_loop fuel n : (N.to_nat (N.log2 n) < fuel)%nat ->
  value_of (decimal_loop fuel n) = n /\ forallb is_digit (decimal_loop fuel n) = true /\ decimal_loop fuel n <> [].
Proof.
  revert n. induction fuel as [|fuel IH]; intros n H; [lia|]. cbn [decimal_loop].
  assert (Hm : n mod 10 < 10) by (apply N.mod_lt; lia).
  assert (Hdig : is_digit (48 + n mod 10) = true).
  { unfold is_digit. apply andb_true_iff. split; apply N.leb_le; lia. }
  destruct (N.ltb_spec n 10) as [L|L].
  - cbn [app]. unfold value_of. cbn [fold_left forallb]. rewrite Hdig. rewrite (N.mod_small n 10) by exact L.
    split; [lia|split; [reflexivity|discriminate]].
  - assert (Hq : (N.to_nat (N.log2 (n / 10)) < fuel)%nat).
    { assert (N.log2 (n / 10) < N.log2 n); [|lia].
      assert (n / 10 <= n / 2) by (apply N.div_le_compat_l; lia).
      assert (N.log2 (n / 10) <= N.log2 (n / 2)) by (apply N.log2_le_mono; assumption).
      assert (N.log2 (n / 2) = N.pred (N.log2 n)) by (rewrite <- N.div2_div; rewrite N.div2_spec; rewrite N.log2_shiftr; lia).
      assert (0 < N.log2 n) by (apply N.log2_pos; lia). lia. }
    destruct (IH (n / 10) Hq) as (V & D & NE). split; [|split].
    + unfold value_of in *. rewrite fold_left_app. rewrite V. cbn [fold_left].
      pose proof (N.div_mod n 10). lia.
    + rewrite forallb_app, D. cbn [forallb]. now rewrite Hdig.
    + intros E. apply (f_equal (@List.length N)) in E. rewrite app_length in E. cbn in E. lia.
Qed.
Lemma decimal_spec n : value_of (decimal n) = n /\ forallb is_digit (decimal n) = true /\ decimal n <> [].
Proof. apply decimal_value_loop. lia. Qed.

Lemma digits_no_sep ds : forallb is_digit ds = true -> ~ In 46 ds /\ ~ In 47 ds.
Proof.
  intros H. rewrite forallb_forall in H. split; intros Hi; apply H in Hi; discriminate.
Qed.
