(** * Lemmas: what a successful save leaves behind. *)
From Verif Require Import Base M_Ints M_Unsync M_Stream M_Payload M_Frame M_Tag22 M_Tag23 M_Tag24 M_Read M_Fs M_Tagset
  S_Ints S_Stream S_Tag S_Tag23 S_Tag24 S_Read S_Tagset L_Stream L_Read L_Fs L_Backup L_Tagset L_Tagset2 L_Tagset3 L_Tagset4 L_Tagset5.

Lemma snd_bind {A X} (x : FS A) (f : A -> FS X) fs a s : snd (x fs) = (Ok a, s) -> snd (fbind x f fs) = snd (f a s).
Proof. unfold fbind. destruct (x fs) as [l r]. cbn [snd]. intros ->. now destruct (f a s). Qed.
Lemma snd_catch {A} (x : FS A) (h : exn -> FS A) fs a s : snd (x fs) = (Ok a, s) -> snd (fcatch x h fs) = (Ok a, s).
Proof. unfold fcatch. destruct (x fs) as [l r]. cbn [snd]. now intros ->. Qed.
Lemma snd_copy from to fs b : find_node from fs = Some (File b) -> find_node to fs = None ->
  snd (fcopy from to None fs) = (Ok tt, set_node to (File b) fs).
Proof. intros H1 H2. unfold fcopy. now rewrite H1, H2. Qed.
Lemma snd_remove k fs : find_node k fs <> Some Dir -> snd (fremove k fs) = (Ok tt, del_node k fs).
Proof. intros H. unfold fremove. destruct (find_node k fs) as [[b|]|]; try reflexivity. congruence. Qed.

Lemma snd_backup {X} (x : FS key) (K : option key -> FS X) s :
  snd ((run cp <- (run c <- x;; fret (Some c));; K cp) s) =
  match snd (x s) with
  | (Ok c, s1) => snd (K (Some c) s1)
  | (Throw e, s1) => (Throw e, s1)
  | (UB u, s1) => (UB u, s1)
  | (NonTerm, s1) => (NonTerm, s1)
  end.
Proof. unfold fbind, fret. destruct (x s) as [l [[c|e|u|] s1]]; cbn [snd]; try reflexivity. now destruct (K (Some c) s1). Qed.

Lemma snd_prefix z e p ts m keep w ts' fs data l : let k := resolve (e_cwd e) p in
  find_node k fs = Some (File data) -> tags_from data 0 l -> emit_all z m ts = (w, Ok ts') -> tags_end 0 l <= len data -> e_tmp e <> k ->
  exists s, snd (replace_tagset_copy z e p ts m keep fs) = snd (
      (run cp <- (if keep then run c <- make_backup e p;; fret (Some c) else fret None);;
       run _ <- swap_in e p keep cp;; fret ts') s) /\
    find_node (e_tmp e) s = Some (File (w ++ dropN (tags_end 0 l) data)) /\
    (forall j, j <> e_tmp e -> find_node j s = find_node j fs).
Proof.
  intros k Hk Hl He Hle Ht. unfold replace_tagset_copy. fold k. cbv zeta.
  erewrite snd_bind by reflexivity. rewrite He. erewrite snd_bind by reflexivity. rewrite find_set_same. cbn [app].
  set (s1 := set_node _ _ _). erewrite snd_bind by reflexivity. erewrite snd_bind by reflexivity.
  assert (E1 : find_node k s1 = Some (File data)) by (unfold s1; now rewrite !find_set_other by congruence).
  assert (E2 : find_node (e_tmp e) s1 = Some (File w)) by apply find_set_same.
  rewrite E1. rewrite (rest_of_ok data l Hl). destruct (N.leb_spec (tags_end 0 l) (len data)); [|lia].
  erewrite snd_bind by reflexivity. erewrite snd_bind by reflexivity. rewrite E2.
  eexists. split; [reflexivity|]. split; [apply find_set_same|]. intros j Hj. unfold s1. now rewrite !find_set_other by exact Hj.
Qed.

Lemma copy_plain z e p ts m w ts' fs data l : let k := resolve (e_cwd e) p in
  find_node k fs = Some (File data) -> tags_from data 0 l -> tags_end 0 l <= len data ->
  emit_all z m ts = (w, Ok ts') -> e_tmp e <> k -> find_node (e_tmp e) fs = None -> e_rename e = RenameOk ->
  exists fs', snd (replace_tagset_copy z e p ts m false fs) = (Ok ts', fs') /\
    find_node k fs' = Some (File (w ++ dropN (tags_end 0 l) data)) /\ forall j, j <> k -> find_node j fs' = find_node j fs.
Proof.
  intros k Hk Hl Hle He Ht Hf Hr. destruct (snd_prefix z e p ts m false w ts' fs data l Hk Hl He Hle Ht) as (s & -> & E1 & E2).
  erewrite snd_bind by reflexivity. unfold swap_in. rewrite Hr. fold k. cbv zeta.
  erewrite snd_bind by (unfold frename; rewrite E1; reflexivity). cbn [snd fret].
  eexists. split; [reflexivity|]. split; [apply find_set_same|]. intros j Hj. rewrite find_set_other by exact Hj.
  destruct (key_eqb_spec j (e_tmp e)) as [->|Hjt]; [now rewrite find_del_same, Hf|]. rewrite find_del_other by exact Hjt. now apply E2.
Qed.

Lemma make_backup_ok e d n s c s' data : dir_path d -> plain_name n -> find_node (resolve_abs (spelled d n)) s = Some (File data) ->
  snd (make_backup e (spelled d n) s) = (Ok c, s') ->
  is_backup d n c /\ find_node c s = None /\ s' = set_node c (File data) s /\
  exists ds, get_backup_name s (e_cwd e) (spelled d n) = Ok (spelled d n ++ B "." ++ ds) /\ c = resolve_abs (spelled d n ++ B "." ++ ds).
Proof.
  intros Hd Hn Hk. unfold make_backup. cbv zeta.
  destruct (get_backup_name s (e_cwd e) (spelled d n)) as [name|x|u|] eqn:EG; try discriminate.
  destruct (backup_fresh _ _ _ _ _ Hd Hn EG) as (ds & -> & H1 & H2 & H3 & _).
  erewrite snd_bind by reflexivity. erewrite snd_bind by reflexivity.
  assert (EC : resolve (e_cwd e) (spelled d n ++ B "." ++ ds) = resolve_abs (spelled d n ++ B "." ++ ds)).
  { rewrite spelled_app. apply resolve_hd, spelled_hd, Hd. }
  rewrite EC in *. set (cp := resolve_abs (spelled d n ++ B "." ++ ds)) in *. rewrite H3. erewrite snd_bind by reflexivity.
  rewrite (resolve_hd (e_cwd e) (spelled d n)) by (apply spelled_hd, Hd).
  unfold fbind, fcopy. rewrite Hk, H3. destruct (e_copy1 e) as [f|]; cbn [snd fret]; [discriminate|].
  intros E. injection E as <- <-. split; [exists ds; auto|]. split; [exact H3|]. split; [reflexivity|]. exists ds. auto.
Qed.

Lemma copy_backup z e d n ts m w ts' fs data l r fs' : let p := spelled d n in let k := resolve_abs p in
  dir_path d -> plain_name n -> find_node k fs = Some (File data) -> tags_from data 0 l -> tags_end 0 l <= len data ->
  emit_all z m ts = (w, Ok ts') -> e_tmp e <> k -> ~ In 46 (last (e_tmp e) []) -> find_node (e_tmp e) fs = None -> e_rename e = RenameOk ->
  snd (replace_tagset_copy z e p ts m true fs) = (Ok r, fs') ->
  find_node k fs' = Some (File (w ++ dropN (tags_end 0 l) data)) /\
  exists c, is_backup d n c /\ find_node c fs = None /\ find_node c fs' = Some (File data) /\
    forall j, j <> k -> j <> c -> find_node j fs' = find_node j fs.
Proof.
  intros p k Hd Hn Hk Hl Hle He Ht Hdot Hf Hr.
  assert (Ek : resolve (e_cwd e) p = k) by (apply resolve_hd, spelled_hd, Hd).
  pose proof (snd_prefix z e p ts m true w ts' fs data l) as C. rewrite Ek in C. destruct (C Hk Hl He Hle Ht) as (s & -> & E1 & E2).
  cbv iota. rewrite snd_backup. destruct (snd (make_backup e p s)) as [[c|x|u|] s1] eqn:EM; try discriminate.
  assert (Hks : find_node k s = Some (File data)) by (rewrite E2 by congruence; exact Hk).
  destruct (make_backup_ok e d n s c s1 data Hd Hn Hks) as (B1 & B2 & -> & _); [exact EM|].
  assert (Nk : c <> k) by (intros ->; now apply (backup_not_file d n Hn)).
  assert (Nt : c <> e_tmp e) by (intros ->; apply Hdot; now apply (backup_has_dot d n)).
  unfold swap_in. rewrite Hr, Ek. cbv zeta. unfold frename, fbind. rewrite find_set_other, E1 by congruence. cbn [snd fst change fret].
  intros E. apply (f_equal snd) in E. cbn [snd] in E. subst fs'. split; [apply find_set_same|]. exists c.
  split; [exact B1|]. split; [rewrite <- E2 by congruence; exact B2|]. split.
  - rewrite find_set_other, find_del_other, find_set_same by congruence. reflexivity.
  - intros j J1 J2. rewrite find_set_other by congruence. destruct (key_eqb_spec j (e_tmp e)) as [->|Hjt].
    + now rewrite find_del_same, Hf.
    + rewrite find_del_other, find_set_other by congruence. now apply E2.
Qed.

(** ** Across devices *)
Lemma xdev_keep z e d n ts m w ts' fs data l r fs' : let p := spelled d n in let k := resolve_abs p in
  dir_path d -> plain_name n -> find_node k fs = Some (File data) -> tags_from data 0 l -> tags_end 0 l <= len data ->
  emit_all z m ts = (w, Ok ts') -> e_tmp e <> k -> ~ In 46 (last (e_tmp e) []) -> e_rename e = RenameXdev ->
  snd (replace_tagset_copy z e p ts m true fs) = (Ok r, fs') ->
  find_node (e_tmp e) fs' = Some (File (w ++ dropN (tags_end 0 l) data)).
Proof.
  intros p k Hd Hn Hk Hl Hle He Ht Hdot Hr.
  assert (Ek : resolve (e_cwd e) p = k) by (apply resolve_hd, spelled_hd, Hd).
  pose proof (snd_prefix z e p ts m true w ts' fs data l) as C. rewrite Ek in C. destruct (C Hk Hl He Hle Ht) as (s & -> & E1 & E2).
  cbv iota. rewrite snd_backup. destruct (snd (make_backup e p s)) as [[c|x|u|] s1] eqn:EM; try discriminate.
  assert (Hks : find_node k s = Some (File data)) by (rewrite E2 by congruence; exact Hk).
  destruct (make_backup_ok e d n s c s1 data Hd Hn Hks) as (B1 & B2 & -> & _); [exact EM|].
  assert (Nk : c <> k) by (intros ->; now apply (backup_not_file d n Hn)).
  assert (Nt : c <> e_tmp e) by (intros ->; apply Hdot; now apply (backup_has_dot d n)).
  unfold swap_in. rewrite Hr, Ek. cbv zeta. set (s1 := set_node c (File data) s).
  assert (F1 : find_node (e_tmp e) s1 = Some (File (w ++ dropN (tags_end 0 l) data))) by (unfold s1; now rewrite find_set_other by congruence).
  assert (F2 : find_node k s1 = Some (File data)) by (unfold s1; now rewrite find_set_other by congruence).
  clearbody s1. unfold fbind. cbn [fst snd fret]. unfold fremove at 1. rewrite F2. cbn [fst snd change].
  unfold fcatch, fcopy at 1. rewrite find_del_other, F1, find_del_same by congruence.
  destruct (e_copy2 e) as [f|]; cbn [fst snd negb fret].
  - destruct (fcopy c k (e_copy3 e) _) as [l3 [[[]|x|u|] s3]]; cbn; discriminate.
  - intros E. apply (f_equal snd) in E. cbn [snd] in E. subst fs'. rewrite find_set_other, find_del_other by congruence. exact F1.
Qed.

Lemma xdev_nokeep z e d n ts m w ts' fs data l r fs' : let p := spelled d n in let k := resolve_abs p in
  dir_path d -> plain_name n -> find_node k fs = Some (File data) -> tags_from data 0 l -> tags_end 0 l <= len data ->
  emit_all z m ts = (w, Ok ts') -> e_tmp e <> k -> ~ In 46 (last (e_tmp e) []) -> e_rename e = RenameXdev ->
  snd (replace_tagset_copy z e p ts m false fs) = (Ok r, fs') ->
  exists c, is_backup d n c /\ find_node c fs = None /\ find_node c fs' = Some (File data).
Proof.
  intros p k Hd Hn Hk Hl Hle He Ht Hdot Hr.
  assert (Ek : resolve (e_cwd e) p = k) by (apply resolve_hd, spelled_hd, Hd).
  pose proof (snd_prefix z e p ts m false w ts' fs data l) as C. rewrite Ek in C. destruct (C Hk Hl He Hle Ht) as (s & -> & E1 & E2).
  assert (Hks : find_node k s = Some (File data)) by (rewrite E2 by congruence; exact Hk).
  erewrite snd_bind by reflexivity. unfold swap_in. rewrite Hr, Ek. cbv zeta.
  unfold fbind. destruct (make_backup e p s) as [ll [[c|x|u|] s1]] eqn:EM; cbn [fst snd fret]; try discriminate.
  destruct (make_backup_ok e d n s c s1 data Hd Hn Hks) as (B1 & B2 & -> & _); [unfold p in EM; now rewrite EM|].
  assert (Nk : c <> k) by (intros ->; now apply (backup_not_file d n Hn)).
  assert (Nt : c <> e_tmp e) by (intros ->; apply Hdot; now apply (backup_has_dot d n)).
  set (s1 := set_node c (File data) s).
  assert (F1 : find_node (e_tmp e) s1 = Some (File (w ++ dropN (tags_end 0 l) data))) by (unfold s1; now rewrite find_set_other by congruence).
  assert (F2 : find_node k s1 = Some (File data)) by (unfold s1; now rewrite find_set_other by congruence).
  assert (F3 : find_node c s1 = Some (File data)) by (unfold s1; apply find_set_same).
  clearbody s1. cbn [fst snd fret]. unfold fremove at 1. rewrite F2. cbn [fst snd change].
  unfold fcatch, fcopy at 1. rewrite find_del_other, F1, find_del_same by congruence.
  destruct (e_copy2 e) as [f|]; cbn [fst snd negb fret].
  - destruct (fcopy c k (e_copy3 e) _) as [l3 [[[]|x|u|] s3]]; cbn; discriminate.
  - unfold fremove. rewrite find_set_other, find_del_other, F1 by congruence. cbn [fst snd change].
    intros E. apply (f_equal snd) in E. cbn [snd] in E. subst fs'. exists c. split; [exact B1|]. split; [rewrite <- E2 by congruence; exact B2|].
    rewrite find_del_other, find_set_other, find_del_other by congruence. exact F3.
Qed.

(** ** A relative path: the backup is always ".1" *)
Lemma relative_overwrites z e p d n ts m w ts' fs data old l r fs' : let k := resolve (e_cwd e) p in
  p <> [] -> hd 0 p <> 47 -> hd 0 (e_cwd e) = 47 -> dir_path d -> plain_name n -> absolute (e_cwd e) p = spelled d n ->
  let c := resolve_abs (spelled d n ++ B ".1") in
  find_node k fs = Some (File data) -> tags_from data 0 l -> tags_end 0 l <= len data ->
  emit_all z m ts = (w, Ok ts') -> e_tmp e <> k -> ~ In 46 (last (e_tmp e) []) -> e_rename e = RenameOk ->
  find_node c fs = Some (File old) ->
  snd (replace_tagset_copy z e p ts m true fs) = (Ok r, fs') ->
  find_node c fs' = Some (File data).
Proof.
  intros k Hp Hrel Hc Hd Hn HA c Hk Hl Hle He Ht Hdot Hr Hold.
  assert (Ek : k = resolve_abs (spelled d n)) by (unfold k, resolve; now rewrite HA).
  destruct (snd_prefix z e p ts m true w ts' fs data l Hk Hl He Hle Ht) as (s & -> & E1 & E2). fold k in E2.
  assert (HB : is_backup d n c) by (exists (B "1"); split; [discriminate|split; reflexivity]).
  assert (Nk : c <> k) by (rewrite Ek; intros H; apply (backup_not_file d n Hn); now rewrite <- H).
  assert (Nt : c <> e_tmp e) by (intros H; apply Hdot; rewrite <- H; now apply (backup_has_dot d n)).
  assert (Hks : find_node k s = Some (File data)) by (rewrite E2 by congruence; exact Hk).
  assert (Hcs : find_node c s = Some (File old)) by (rewrite E2 by congruence; exact Hold).
  assert (EN : get_backup_name s (e_cwd e) p = Ok (spelled d n ++ B ".1")).
  { rewrite backup_relative by assumption.
    assert (EJ : absolute (e_cwd e) p = join (e_cwd e) p).
    { unfold absolute. destruct p as [|a p]; [reflexivity|]. cbn in Hrel. destruct (N.eqb_spec a 47); [contradiction|reflexivity]. }
    assert (EF : filename p = n).
    { rewrite <- (filename_spelled d n) by apply Hn. rewrite <- HA, EJ. symmetry. apply join_filename. intros E. rewrite E in Hc. discriminate. }
    rewrite HA, EF, parent_spelled, join_dir by (apply Hn || exact Hd). now rewrite spelled_app. }
  assert (ER : resolve (e_cwd e) (spelled d n ++ B ".1") = c) by (unfold c; rewrite spelled_app; apply resolve_hd, spelled_hd, Hd).
  cbv iota. rewrite snd_backup.
  unfold make_backup. rewrite EN. cbv zeta. fold k. unfold fbind, flift, lookup. rewrite ER, Hcs.
  unfold fremove at 1. rewrite Hcs. cbn [fst snd change fret]. unfold fcopy at 1. rewrite find_del_other, Hks, find_del_same by congruence.
  destruct (e_copy1 e) as [f|]; cbn [fst snd fret]; [discriminate|].
  unfold swap_in. rewrite Hr. fold k. cbv zeta. unfold frename. rewrite find_set_other, find_del_other, E1 by congruence.
  cbn [fst snd change fret]. intros E. apply (f_equal snd) in E. cbn [snd] in E. subst fs'. rewrite find_set_other, find_del_other, find_set_same by congruence. reflexivity.
Qed.

(** ** Saving *)
Lemma contents_same t t' : same_but_caches t t' -> contents t' = contents t.
Proof.
  destruct t as [a|a|a], t' as [b|b|b]; cbn [same_but_caches contents]; try tauto; intros H;
    repeat match goal with H : _ /\ _ |- _ => destruct H end; rewrite <- !(map_map c_frame new_frame); try congruence.
  assert (X : option_map bare_ext (t3_ext b) = option_map bare_ext (t3_ext a)).
  { destruct (t3_ext a), (t3_ext b); cbn [same_ext option_map] in *; try tauto. unfold bare_ext. f_equal.
    now f_equal. }
  congruence.
Qed.
Lemma contents_repadded t t' : repadded t t' -> contents t' = contents t.
Proof.
  unfold repadded, unpadded. destruct t as [a|a|a], t' as [b|b|b]; cbn; try discriminate; intros H; injection H; intros; congruence.
Qed.

Lemma wraps_same ts ts1 target cur : Forall2 same_but_caches ts ts1 -> wraps ts1 target cur -> wraps ts target cur.
Proof.
  intros HF (t & r & -> & H1 & H2 & H3). inversion HF as [|a b ra rb Hab Hr]; subst. exists a, ra.
  rewrite (pad_same _ _ Hab) in H3. rewrite (same_len _ _ HF) in H2. auto.
Qed.

Lemma saved_contents ts r : Forall2 (fun t t' => exists t0, same_but_caches t t0 /\ repadded t0 t') ts r -> map contents r = map contents ts.
Proof.
  induction 1 as [|t t' a b (t0 & H1 & H2) _ IH]; [reflexivity|]. cbn. rewrite IH. f_equal.
  rewrite (contents_repadded t0 t' H2). now apply contents_same.
Qed.
Lemma same_contents ts r : Forall2 same_but_caches ts r -> map contents r = map contents ts.
Proof. induction 1 as [|t t' a b H _ IH]; [reflexivity|]. cbn. rewrite IH. f_equal. now apply contents_same. Qed.

Lemma save_keeps z e p d nm ts m strat keep fs data l st r fs' n pd ts1 : let k := resolve (e_cwd e) p in
  p <> [] -> hd 0 (e_cwd e) = 47 -> dir_path d -> plain_name nm -> absolute (e_cwd e) p = spelled d nm ->
  find_node k fs = Some (File data) -> tags_from data 0 l -> tags_end 0 l < 2 ^ 28 -> tags_end 0 l <= len data ->
  Forall simple_tag ts -> Forall (fun t => any_padding t < 2 ^ 62) ts -> sizes z m ts = Ok (n, pd, ts1) -> n < 2 ^ 28 ->
  ~ wraps ts (tags_end 0 l) n -> e_tmp e <> k -> ~ In 46 (last (e_tmp e) []) ->
  maybe_emplace_tagset z e p ts m strat keep fs = (st, (Ok r, fs')) ->
  map contents r = map contents ts /\
  (exists w, emit_all z m r = (w, Ok r) /\ find_node k fs' = Some (File (w ++ dropN (tags_end 0 l) data))) /\
  forall j, j <> k -> j <> e_tmp e -> ~ is_backup d nm j -> find_node j fs' = find_node j fs.
Proof.
  intros k Hp Hc Hd Hnm HA Hk Hl HT HL HS HP Hz Hn Hw Htk Hdot H. set (T := tags_end 0 l) in *.
  destruct (sizes_settled z m ts (simple_sounds _ HS) n pd ts1 Hz) as (S1 & En & Ep & Hsame & _).
  assert (Hw1 : ~ wraps ts1 T n) by (intros HW; apply Hw; now apply (wraps_same ts ts1)).
  assert (HS1 : Forall simple_tag ts1) by (apply (same_all simple_tag ts ts1); [exact simple_same|assumption..]).
  assert (Hpd : pd <= n) by (rewrite Ep, En; apply settled_padding_le).
  assert (D : forall ts2, saved z m k fs data l ts ts2 fs' -> map contents ts2 = map contents ts /\
    (exists w, emit_all z m ts2 = (w, Ok ts2) /\ find_node k fs' = Some (File (w ++ dropN T data))) /\
    forall j, j <> k -> j <> e_tmp e -> ~ is_backup d nm j -> find_node j fs' = find_node j fs).
  { intros ts2 (w & W1 & W2 & W3). split; [now apply saved_contents|]. split; [exists w; rewrite W3; split; [exact W1|apply find_set_same]|].
    intros j Hj _ _. rewrite W3. now apply find_set_other. }
  assert (HAdj : forall ts2 o, adjust_padding_to ts1 T n = (ts2, o) ->
     (run _ <- flift o;; replace_tagset_emplace z e p ts2 m) fs = (st, (Ok r, fs')) -> saved z m k fs data l ts r fs').
  { intros ts2 o HA2 HR. rewrite fbind_lift in HR. destruct o as [[]|x|u|]; try discriminate.
    eapply (adjusted_emplace z e p m fs data l ts ts1 n pd T ts2 st r fs'); eauto; unfold T; lia. }
  unfold maybe_emplace_tagset in H. cbv zeta in H. fold k in H. unfold tagset_size in H. rewrite Hk, (extant_ok data l Hl) in H. fold T in H.
  rewrite fbind_lift in H. unfold tagset_sizes in H. rewrite Hz in H. cbn [bind] in H.
  assert (Ew : wrap64 n = n) by (unfold wrap64; apply N.mod_small; lia).
  assert (Ewp : wrap64 pd = pd) by (unfold wrap64; apply N.mod_small; lia). rewrite Ew in H. rewrite fbind_lift in H.
  destruct (n <=? T) eqn:L1.
  - apply D. destruct (n <? T) eqn:L2.
    + destruct (adjust_padding_to ts1 T n) as [ts2 o] eqn:EA. now apply (HAdj ts2 o).
    + apply N.ltb_ge in L2. apply N.leb_le in L1.
      destruct (emplace_settled z e p ts1 m fs data l r st fs' Hk Hl HT HL S1 HS1) as (-> & w & W1 & W2 & W3); [lia|exact H|].
      exists w. split; [exact W1|]. split; [|exact W3]. clear - Hsame. induction Hsame; constructor; [|assumption].
      exists y. split; [assumption|reflexivity].
  - destruct (_ && _).
    + apply D. destruct (adjust_padding_to ts1 T n) as [ts2 o] eqn:EA. now apply (HAdj ts2 o).
    + destruct (emit_all_settled z m ts1 S1) as (w & W1 & _); [lia|].
      pose proof (copy_any z e p d nm ts1 m keep w (Ok ts1) fs data l Hp Hc Hd Hnm HA Hk Hl W1 Hdot Htk) as C. cbv zeta in C.
      rewrite H in C. destruct C as (_ & [_ C1] & C2 & C3). apply Ok_inj in C2. subst r.
      split; [now apply same_contents|]. split; [exists w; split; [exact W1|exact C3]|exact C1].
Qed.

(** No tags at all: the bytes to give to each are divided by zero. *)
Lemma save_empty z e p m strat keep fs data l : let k := resolve (e_cwd e) p in
  find_node k fs = Some (File data) -> tags_from data 0 l -> l <> [] ->
  maybe_emplace_tagset z e p [] m strat keep fs = ([], (UB DivByZero, fs)).
Proof.
  intros k Hk Hl Hne. unfold maybe_emplace_tagset. cbv zeta. fold k. unfold tagset_size. rewrite Hk, (extant_ok data l Hl).
  rewrite fbind_lift. unfold tagset_sizes. cbn [sizes bind]. rewrite fbind_lift. change (wrap64 0) with 0.
  destruct l as [|h l]; [congruence|]. cbn [tags_end].
  pose proof (tags_end_ge l (0 + 10 + hd_size h)) as G. set (T := tags_end _ l) in *. clearbody T.
  assert (L1 : 0 <=? T = true) by (apply N.leb_le; lia). assert (L2 : 0 <? T = true) by (apply N.ltb_lt; lia). rewrite L1, L2.
  reflexivity.
Qed.
