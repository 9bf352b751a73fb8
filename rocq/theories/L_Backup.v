(** * Lemmas: names of backups. *)
From Verif Require Import Base M_Fs M_Tagset S_Tagset L_Fs.

Lemma numbered_spec p s : numbered p s = true <->
  exists ds, s = p ++ [46] ++ ds /\ ds <> [] /\ forallb is_digit ds = true.
Proof.
  unfold numbered. rewrite !andb_true_iff. split.
  - intros [[[Hp Hl] Hdot] Hd]. destruct (bytes_eqb_spec p (takeN (len p) s)) as [E|]; [|discriminate].
    apply N.ltb_lt in Hl. apply N.eqb_eq in Hdot. exists (dropN (len p + 1) s).
    assert (Es : s = p ++ dropN (len p) s).
    { rewrite E at 1. rewrite takeN_firstn, dropN_skipn. symmetry. apply firstn_skipn. }
    rewrite Es in Hdot. unfold len in Hdot at 1. rewrite Nat2N.id, app_nth2, Nat.sub_diag in Hdot by lia.
    assert (Ed : dropN (len p + 1) s = dropN 1 (dropN (len p) s)) by now rewrite dropN_dropN.
    destruct (dropN (len p) s) as [|c r] eqn:Er.
    { exfalso. rewrite app_nil_r in Es. rewrite Es in Hl. lia. }
    cbn in Hdot. subst c. rewrite Ed in Hd |- *. change (dropN 1 (46 :: r)) with (dropN 0 r) in *.
    assert (E0 : dropN 0 r = r) by now destruct r. rewrite E0 in *.
    split; [exact Es|]. split; [|exact Hd]. intros ->. rewrite Es, len_app in Hl.
    change (len [46]) with 1 in Hl. lia.
  - intros (ds & -> & Hne & Hd). rewrite takeN_app_exact by reflexivity.
    repeat split.
    + now destruct (bytes_eqb_spec p p).
    + apply N.ltb_lt. rewrite !len_app. change (len [46]) with 1. destruct ds; [congruence|]. rewrite len_cons. lia.
    + unfold len. rewrite Nat2N.id, app_nth2, Nat.sub_diag by lia. reflexivity.
    + rewrite <- dropN_dropN, dropN_app_exact by reflexivity. cbn [app].
      change (dropN 1 (46 :: ds)) with (dropN 0 ds). destruct ds; exact Hd.
Qed.

Lemma last_number_ge l : forall n s, last_number l = Ok n -> In s l -> exists m, entry_number s = Ok m /\ m <= n.
Proof.
  induction l as [|p r IH]; intros n s H Hi; [elim Hi|]. cbn [last_number] in H.
  apply bind_ok in H as (a & Ha & H). apply bind_ok in H as (b & Hb & H). apply Ok_inj in H. subst n.
  destruct Hi as [->|Hi]; [exists a; split; [exact Ha|lia]|].
  destruct (IH b s Hb Hi) as (m & Hm & L). exists m. split; [exact Hm|lia].
Qed.

Lemma entry_number_of d n ds m : plain_name n -> ds <> [] -> forallb is_digit ds = true ->
  entry_number (spelled d n ++ [46] ++ ds) = Ok m -> m = value_of ds.
Proof.
  intros (H47 & Hn & _) Hd Hf. unfold entry_number. destruct (digits_no_sep ds Hf) as [D1 D2].
  rewrite ext_of_numbered by assumption. unfold atoi. fold (value_of ds).
  destruct (value_of ds <? 2 ^ 31); [|discriminate]. intros H. now apply Ok_inj in H.
Qed.

Lemma plain_numbered n ds : plain_name n -> ds <> [] -> forallb is_digit ds = true -> plain_name (n ++ [46] ++ ds).
Proof.
  intros (H47 & Hn & _) Hd Hf. destruct (digits_no_sep ds Hf) as [_ D2]. repeat split.
  - rewrite !in_app_iff. cbn. intros [?|[[?|[]]|?]]; auto. discriminate.
  - destruct n; discriminate.
  - destruct n as [|a n]; [congruence|]. destruct ds as [|b ds]; [congruence|]. intros E.
    apply (f_equal (@List.length N)) in E. rewrite !app_length in E. cbn in E. lia.
  - destruct n as [|a n]; [congruence|]. destruct ds as [|b ds]; [congruence|]. intros E.
    apply (f_equal (@List.length N)) in E. rewrite !app_length in E. cbn in E. lia.
Qed.

Lemma spelled_app d n x : spelled d n ++ x = spelled d (n ++ x).
Proof. unfold spelled. rewrite <- !app_assoc. reflexivity. Qed.

(** A numbered entry that exists is found. *)
Lemma numbered_found fs d n ds nd : dir_path d -> plain_name n -> ds <> [] -> forallb is_digit ds = true ->
  find_node (resolve_abs (spelled d n ++ [46] ++ ds)) fs = Some nd ->
  In (spelled d n ++ [46] ++ ds) (filter (numbered (spelled d n)) (directory_entries fs (dir_of d))).
Proof.
  intros Hd Hn Hne Hf H. apply find_in in H. rewrite spelled_app in *. apply filter_In. split.
  - rewrite <- join_dir by exact Hd. apply (in_entries _ _ _ _ H). rewrite resolve_dir_of.
    apply resolve_spelled. now apply plain_numbered.
  - apply numbered_spec. exists ds. rewrite spelled_app. auto.
Qed.

Lemma backup_fresh fs cwd d n name : dir_path d -> plain_name n ->
  get_backup_name fs cwd (spelled d n) = Ok name ->
  exists ds, name = spelled d n ++ B "." ++ ds /\ ds <> [] /\ forallb is_digit ds = true /\
    find_node (resolve cwd name) fs = None /\
    forall ds', ds' <> [] -> forallb is_digit ds' = true ->
      find_node (resolve cwd (spelled d n ++ B "." ++ ds')) fs <> None -> value_of ds' < value_of ds.
Proof.
  intros Hd Hn. unfold get_backup_name. rewrite absolute_spelled, parent_spelled by (apply Hn || exact Hd).
  change (B ".") with [46] in *.
  assert (RA : forall ds, resolve cwd (spelled d n ++ [46] ++ ds) = resolve_abs (spelled d n ++ [46] ++ ds)).
  { intros ds. unfold resolve. rewrite spelled_app, absolute_spelled by exact Hd. reflexivity. }
  cbv zeta. destruct (filter _ _) as [|s0 l] eqn:E.
  - intros H. apply Ok_inj in H. subst name. exists [49].
    assert (En : join (dir_of d) (stem (spelled d n) ++ (extension (spelled d n) ++ B ".1")) = spelled d n ++ [46] ++ [49]).
    { unfold stem, extension. rewrite app_assoc, split_ext_join. rewrite filename_spelled by apply Hn.
      rewrite join_dir by exact Hd. now rewrite spelled_app. }
    rewrite En. split; [reflexivity|]. split; [discriminate|]. split; [reflexivity|].
    assert (HF : forall ds', ds' <> [] -> forallb is_digit ds' = true ->
      find_node (resolve cwd (spelled d n ++ [46] ++ ds')) fs = None).
    { intros ds' H1 H2. rewrite RA. destruct (find_node _ fs) as [nd|] eqn:F; [|reflexivity].
      apply numbered_found in F; auto. rewrite E in F. elim F. }
    split; [apply HF; [discriminate|reflexivity]|]. intros ds' H1 H2 H3. now rewrite HF in H3.
  - rewrite <- E. intros H. apply bind_ok in H as (m & Hm & H).
    destruct (N.ltb_spec (m + 1) (2 ^ 31)); [|discriminate]. apply Ok_inj in H. subst name.
    destruct (decimal_spec (m + 1)) as (V & D & NE). exists (decimal (m + 1)).
    split; [reflexivity|]. split; [exact NE|]. split; [exact D|].
    assert (HL : forall ds', ds' <> [] -> forallb is_digit ds' = true ->
      find_node (resolve cwd (spelled d n ++ [46] ++ ds')) fs <> None -> value_of ds' <= m).
    { intros ds' H1 H2 H3. rewrite RA in H3.
      destruct (find_node (resolve_abs (spelled d n ++ [46] ++ ds')) fs) as [nd|] eqn:F; [|congruence].
      apply numbered_found in F; auto. destruct (last_number_ge _ _ _ Hm F) as (k & Hk & L).
      apply entry_number_of in Hk; auto. now subst k. }
    split.
    + destruct (find_node _ fs) as [nd|] eqn:F; [|reflexivity]. exfalso.
      assert (value_of (decimal (m + 1)) <= m) by (apply HL; auto; intros F'; change (B ".") with [46] in F; congruence). lia.
    + intros ds' H1 H2 H3. apply HL in H3; auto. lia.
Qed.

(** ** Relative spellings *)
Lemma join_hd d n : hd 0 d = 47 -> hd 0 (join d n) = 47.
Proof.
  intros H. unfold join. destruct (rev d) as [|c r] eqn:E.
  - apply (f_equal (@rev N)) in E. rewrite rev_involutive in E. subst d. discriminate.
  - destruct d as [|a d]; [discriminate|]. destruct (c =? 47); exact H.
Qed.


Lemma parent_hd p : hd 0 p = 47 -> hd 0 (parent_path p) = 47.
Proof.
  intros H. unfold parent_path. cbv zeta.
  set (k := List.length (until_slash (rev p))).
  assert (Hp : exists q, p = 47 :: q) by (destruct p as [|a q]; [discriminate|]; cbn in H; subst a; eauto).
  destruct Hp as (q & Ep).
  assert (HU : until_slash (rev p) = until_slash (rev q) /\
    skipn k (rev p) = skipn (List.length (until_slash (rev q))) (rev q) ++ [47]).
  { unfold k. rewrite Ep. cbn [rev].
    assert (G : forall r, until_slash (r ++ [47]) = until_slash r /\
      skipn (List.length (until_slash (r ++ [47]))) (r ++ [47]) = skipn (List.length (until_slash r)) r ++ [47]).
    { induction r as [|c r [IH1 IH2]]; [split; reflexivity|]. cbn [app until_slash].
      destruct (c =? 47); [split; reflexivity|]. rewrite IH1. split; [reflexivity|].
      cbn [List.length skipn]. rewrite IH1 in IH2. exact IH2. }
    apply G. }
  destruct HU as [_ ->]. set (x := skipn _ _).
  assert (GS : strip_slashes (x ++ [47]) = [] \/ exists y, strip_slashes (x ++ [47]) = y ++ [47] /\ y <> []).
  { clear. induction x as [|c x IH]; [left; reflexivity|]. cbn [app strip_slashes].
    destruct (c =? 47); [exact IH|]. right. exists (c :: x). split; [reflexivity|discriminate]. }
  destruct (x ++ [47]) as [|c r] eqn:E; [now destruct x|].
  destruct GS as [->|(y & -> & Hy)]; [reflexivity|].
  destruct (y ++ [47]) as [|c' r'] eqn:E'; [now destruct y|]. rewrite <- E', rev_app_distr. reflexivity.
Qed.

Lemma relative_not_numbered p s : p <> [] -> hd 0 p <> 47 -> hd 0 s = 47 -> numbered p s = false.
Proof.
  intros H0 Hp Hs. destruct (numbered p s) eqn:E; [|reflexivity].
  apply numbered_spec in E as (ds & -> & _). destruct p as [|a p]; [congruence|]. cbn in Hs, Hp. contradiction.
Qed.

Lemma backup_relative fs cwd p : p <> [] -> hd 0 p <> 47 -> hd 0 cwd = 47 ->
  get_backup_name fs cwd p = Ok (join (parent_path (absolute cwd p)) (filename p ++ B ".1")).
Proof.
  intros H0 Hp Hc. unfold get_backup_name. cbv zeta.
  assert (HA : hd 0 (parent_path (absolute cwd p)) = 47).
  { apply parent_hd. unfold absolute. destruct p as [|a p]; [congruence|]. cbn in Hp.
    destruct (N.eqb_spec a 47); [contradiction|]. now apply join_hd. }
  assert (E : filter (numbered p) (directory_entries fs (parent_path (absolute cwd p))) = []).
  { destruct (filter _ _) as [|s l] eqn:E; [reflexivity|]. exfalso.
    assert (Hi : In s (filter (numbered p) (directory_entries fs (parent_path (absolute cwd p)))))
      by (rewrite E; now left).
    apply filter_In in Hi as [Hi Hn]. apply entries_in in Hi as (k & n & _ & _ & ->).
    rewrite relative_not_numbered in Hn; auto; [discriminate|]. now apply join_hd. }
  rewrite E. do 2 f_equal. unfold stem, extension. now rewrite app_assoc, split_ext_join.
Qed.

(** ** Numbers out of range *)
Lemma backup_overflow fs cwd d n nd : dir_path d -> plain_name n ->
  find_node (resolve_abs (spelled d n ++ B "." ++ B "2147483647")) fs = Some nd ->
  (forall ds, ds <> [] -> forallb is_digit ds = true ->
     find_node (resolve_abs (spelled d n ++ B "." ++ ds)) fs <> None -> value_of ds < 2 ^ 31) ->
  get_backup_name fs cwd (spelled d n) = UB Overflow.
Proof.
  intros Hd Hn H Hall. unfold get_backup_name. rewrite absolute_spelled, parent_spelled by (apply Hn || exact Hd).
  change (B ".") with [46] in *. cbv zeta.
  apply numbered_found in H; [|auto|auto|discriminate|reflexivity].
  assert (HL : forall l, (forall s, In s l -> In s (filter (numbered (spelled d n)) (directory_entries fs (dir_of d)))) ->
    exists k, last_number l = Ok k).
  { induction l as [|s l IH]; intros HI; [exists 0; reflexivity|]. cbn [last_number].
    destruct IH as (k & ->); [intros x Hx; apply HI; now right|].
    assert (Hs := HI s (or_introl eq_refl)). apply filter_In in Hs as [Hi Hs].
    apply numbered_spec in Hs as (ds & -> & Hne & Hf). destruct (digits_no_sep ds Hf) as [D1 D2].
    unfold entry_number. rewrite ext_of_numbered by (auto; apply Hn). unfold atoi. fold (value_of ds).
    assert (value_of ds < 2 ^ 31) as L.
    { apply Hall; auto. apply entries_in in Hi as (k' & n' & Hin & Ek & Ej).
      rewrite spelled_app in *. rewrite join_dir in Ej by exact Hd.
      rewrite resolve_spelled by now apply plain_numbered. rewrite resolve_dir_of in Ek.
      assert (n' = n ++ [46] ++ ds) as ->.
      { unfold spelled in Ej. apply app_inv_head in Ej. apply app_inv_head in Ej. now symmetry. }
      intros F. revert Hin F. rewrite <- Ek. clear. induction fs as [|[k0 n0] r IH]; [intros []|].
      cbn [map fst find_node]. destruct (key_eqb_spec k' k0) as [->|Hk]; [discriminate|].
      intros [->|Hi]; [congruence|auto]. }
    apply N.ltb_lt in L. rewrite L. cbn [bind]. eauto. }
  destruct (filter _ _) as [|s0 l] eqn:E; [elim H|]. rewrite <- E in *.
  destruct (HL (filter (numbered (spelled d n)) (directory_entries fs (dir_of d)))) as (k & Hk); [auto|].
  rewrite Hk. cbn [bind]. destruct (last_number_ge _ _ _ Hk H) as (m & Hm & L).
  apply entry_number_of in Hm; [|exact Hn|discriminate|reflexivity].
  assert (Ev : value_of (B "2147483647") = 2 ^ 31 - 1) by reflexivity.
  rewrite Ev in Hm. destruct (N.ltb_spec (k + 1) (2 ^ 31)); [|reflexivity]. exfalso. subst m.
  change (2 ^ 31) with 2147483648 in *. lia.
Qed.
