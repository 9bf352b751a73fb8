(** * Lemmas: saves that go wrong. *)
From Verif Require Import Base M_Ints M_Unsync M_Stream M_Payload M_Frame M_Tag22 M_Tag23 M_Tag24 M_Read M_Fs M_Tagset
  S_Ints S_Stream S_Tag S_Tag23 S_Tag24 S_Read S_Tagset L_Stream L_Read L_Fs L_Backup L_Tagset L_Tagset2 L_Tagset3 L_Tagset4 L_Tagset5 L_Tagset6.

Lemma takeN_repeatN {A} (x : A) i n : i <= n -> takeN i (repeatN x n) = repeatN x i.
Proof.
  intros H. rewrite takeN_firstn. unfold repeatN. assert (E : (N.to_nat i <= N.to_nat n)%nat) by lia.
  revert E. generalize (N.to_nat i) (N.to_nat n). clear. intros i. induction i as [|i IH]; intros [|n] H; cbn; try lia; [reflexivity..|].
  now rewrite IH by lia.
Qed.

Lemma bases_le z m ts : Forall simple_tag ts ->
  total_size z m ts - total_padding ts = fold_right (fun t n => base_size t (u_of z m t) + 10 + n) 0 ts.
Proof.
  induction 1 as [|t r Ht _ IH]; [reflexivity|].
  change (full_size z m t + 10 + total_size z m r - (any_padding t + total_padding r) =
    base_size t (u_of z m t) + 10 + fold_right (fun t n => base_size t (u_of z m t) + 10 + n) 0 r).
  rewrite <- IH. pose proof (settled_padding_le z m r) as L.
  assert (E : full_size z m t = base_size t (u_of z m t) + any_padding t).
  { unfold full_size. destruct t as [t|t|t]; cbn [mult]; [lia..|contradiction]. }
  rewrite E. lia.
Qed.

(** Where the first padding wraps, everything behind the first tag's frames is
    overwritten with zeros. *)
Lemma save_wraps z e p ts m keep fs data l n pd t r : let k := resolve (e_cwd e) p in
  find_node k fs = Some (File data) -> tags_from data 0 l -> tags_end 0 l < 2 ^ 28 -> tags_end 0 l <= len data -> len data < 2 ^ 62 ->
  Forall simple_tag ts -> Forall (fun t => any_padding t < 2 ^ 62) ts -> sizes z m ts = Ok (n, pd, t :: r) -> n < 2 ^ 28 ->
  wraps (t :: r) (tags_end 0 l) n -> n - pd <= tags_end 0 l -> n - tags_end 0 l - any_padding t <= base_size t (u_of z m t) ->
  exists st o fs' front, maybe_emplace_tagset z e p ts m ReducePaddingEvenly keep fs = (st, (o, fs')) /\
    find_node k fs' = Some (File (front ++ repeatN 0 (len data - len front))) /\ len front <= tags_end 0 l.
Proof.
  intros k Hk Hl HT HL Hlen HS HP Hz Hn Hw Hbase Hfirst. set (T := tags_end 0 l) in *.
  destruct (sizes_settled z m ts (simple_sounds _ HS) n pd (t :: r) Hz) as (S1 & En & Ep & Hsame & _).
  assert (HS1 : Forall simple_tag (t :: r)) by (apply (same_all simple_tag ts (t :: r)); [exact simple_same|assumption..]).
  assert (HP1 : Forall padded (t :: r)).
  { apply (same_all padded ts (t :: r)); [|assumption|].
    - intros a b Hab. now rewrite (pad_same a b Hab).
    - eapply Forall_impl; [|exact HP]. cbn. intros. lia. }
  assert (HPt : any_padding t < 2 ^ 62).
  { apply (same_all (fun t => any_padding t < 2 ^ 62) ts (t :: r)) in HP; [|intros a b Hab; now rewrite (pad_same a b Hab)|assumption].
    now apply Forall_cons_iff in HP as [? _]. }
  assert (Hpd : pd <= n) by (rewrite Ep, En; apply settled_padding_le).
  assert (HWr := Hw). destruct Hw as (t0 & r0 & E0 & LT & LF & LP). injection E0 as <- <-.
  assert (Hn63 : n < 2 ^ 63) by lia.
  destruct (adjust_wraps t r T n Hn63 HP1 HWr) as (t' & HA & HU & Hpad).
  set (D := n - T - any_padding t) in *. assert (HD : 0 < D) by (unfold D; lia). assert (HD2 : D < 2 ^ 28) by (unfold D; lia).
  apply Forall_cons_iff in S1 as [S1 S2]. apply Forall_cons_iff in HS1 as [P1 P2].
  assert (Et' : t' = set_pad t (any_padding t')) by now apply repadded_set.
  assert (S1' : Settled z m t') by (rewrite Et'; now apply Settled_set).
  assert (P1' : simple_tag t') by (rewrite Et'; now apply simple_set).
  assert (EU : u_of z m t' = u_of z m t) by (rewrite Et'; destruct (settled_u _ _ _ _ S1) as [_ E]; apply E).
  assert (EB : base_size t' (u_of z m t') = base_size t (u_of z m t)) by (rewrite EU, Et'; apply base_set).
  assert (EM : mult t = 1 /\ mult t' = 1) by (split; [destruct t as [?|?|?]|destruct t' as [?|?|?]]; try reflexivity; contradiction).
  destruct EM as [EM EM'].
  assert (EF : full_size z m t' = base_size t (u_of z m t) + (2 ^ 64 - D)) by (unfold full_size; rewrite EB, EM', Hpad; lia).
  assert (EF0 : full_size z m t = base_size t (u_of z m t) + any_padding t) by (unfold full_size; rewrite EM; lia).
  set (b := base_size t (u_of z m t)) in *.
  assert (EN : n = full_size z m t + 10 + total_size z m r) by exact En.
  assert (EN2 : total_size z m (t' :: r) = full_size z m t' + 10 + total_size z m r) by reflexivity.
  assert (EW : wrap64 (total_size z m (t' :: r)) = T).
  { unfold wrap64. replace (total_size z m (t' :: r)) with (T + 1 * 2 ^ 64).
    - rewrite N.mod_add by discriminate. apply N.mod_small. lia.
    - rewrite EN2, EF. unfold D. lia. }
  assert (Hb28 : b < 2 ^ 28) by lia.
  assert (EWf : wrap64 (full_size z m t') = b - D).
  { unfold wrap64. replace (full_size z m t') with ((b - D) + 1 * 2 ^ 64) by (rewrite EF; lia).
    rewrite N.mod_add by discriminate. apply N.mod_small. lia. }
  destruct (emit_settled z m t' S1') as [EE _]. rewrite EWf in EE. destruct EE as (h & rest & E1 & (v & f & E2) & _ & E4); [lia|].
  destruct (E4 P1') as (fr & -> & Hfr). rewrite EB in Hfr. rewrite Hpad in E1.
  apply header_len in E2.
  assert (HFT : 10 + b <= T).
  { assert (HB := bases_le z m (t :: r) (Forall_cons _ P1 P2)).
    cbn [fold_right] in HB. fold b in HB. rewrite <- En, <- Ep in HB. lia. }
  unfold maybe_emplace_tagset. cbv zeta. fold k. unfold tagset_size. rewrite Hk, (extant_ok data l Hl). fold T.
  rewrite fbind_lift. unfold tagset_sizes. rewrite Hz. cbn [bind]. rewrite fbind_lift.
  assert (Ew : wrap64 n = n) by (unfold wrap64; apply N.mod_small; lia).
  assert (Ewp : wrap64 pd = pd) by (unfold wrap64; apply N.mod_small; lia). rewrite Ew.
  assert (L1 : n <=? T = false) by (apply N.leb_gt; exact LT). rewrite L1.
  assert (L2 : wrap64 (n + 2 ^ 64 - wrap64 pd) <=? T = true) by (rewrite wrap_sub by lia; apply N.leb_le; exact Hbase).
  rewrite L2. cbn [andb]. rewrite HA. rewrite fbind_lift.
  unfold replace_tagset_emplace. cbv zeta. fold k. unfold tagset_size. rewrite Hk, (extant_ok data l Hl). fold T.
  rewrite fbind_lift. unfold tagset_sizes. rewrite (sizes_stable z m (t' :: r)) by (constructor; assumption). cbn [bind].
  rewrite EW. rewrite fbind_lift. rewrite N.eqb_refl. cbn [negb].
  destruct data as [|d0 data']; [cbn in HL; lia|]. set (dat := d0 :: data') in *.
  cbn [emit_all]. rewrite E1. destruct (emit_all z m r) as [w o2].
  unfold fbind, change, flift. eexists _, _, _, (h ++ fr). split; [reflexivity|].
  assert (Lf : len (h ++ fr) = 10 + b) by (rewrite len_app; lia).
  split; [|rewrite Lf; exact HFT]. rewrite find_set_same. do 2 f_equal.
  unfold overlay.
  assert (Hpos : exists i, 2 ^ 64 - D = (len dat - (10 + b)) + i).
  { exists (2 ^ 64 - D - (len dat - (10 + b))). lia. }
  destruct Hpos as (i & Ei). rewrite Ei, repeatN_add, Lf. clear Ei.
  assert (G : forall F R S X Y : bytes, len (F ++ R) = len dat -> takeN (len dat) (((h ++ fr ++ R ++ S) ++ X) ++ Y) = (h ++ fr) ++ R \/ F <> h ++ fr).
  { intros F R S0 X Y HF. destruct (bytes_eqb_spec F (h ++ fr)) as [-> |NE]; [left|right; exact NE].
    replace (((h ++ fr ++ R ++ S0) ++ X) ++ Y) with (((h ++ fr) ++ R) ++ (S0 ++ X ++ Y)) by (rewrite <- !app_assoc; reflexivity).
    apply takeN_app_exact. exact HF. }
  match goal with |- takeN _ (((h ++ fr ++ ?R ++ ?S0) ++ ?X) ++ ?Y) = _ => destruct (G (h ++ fr) R S0 X Y) as [E|E]; [|exact E|now elim E] end.
  rewrite len_app, Lf, len_repeatN. lia.
Qed.

(** ** Extended headers *)
Definition wit_tag : list anytag :=
  [A23 (mkTag23 None false (Some (mkExt 65504 None true [] [] 0)) 0 [new_frame (title (B "A"))])].
Definition wit_file (audio : bytes) : bytes := B "ID3" ++ [2; 0; 0; 0; 0; 0; 22] ++ repeat 0 22 ++ audio.
Definition wit_env : env := mkEnv (B "/m") [B "tmp"; B "x"] RenameOk None None None.
Definition wit_key : key := [B "m"; B "a"].

Lemma header_shift pre post v r f sz : id3v2_header_at (pre ++ post) (len pre) v r f sz <-> id3v2_header_at post 0 v r f sz.
Proof.
  unfold id3v2_header_at. rewrite (dropN_app_exact (len pre)) by reflexivity.
  assert (E : dropN 0 post = post) by (rewrite dropN_skipn; reflexivity). now rewrite E.
Qed.

Lemma wit_tags c audio : (forall v r f sz, ~ id3v2_header_at (c :: audio) 0 v r f sz) ->
  tags_from (wit_file (c :: audio)) 0 [mkHead 0 2 0 0 22].
Proof.
  intros H. split; [reflexivity|]. split.
  - exists 0, 0, 0, 22. eexists. split; [reflexivity|]. repeat split; try discriminate; repeat constructor.
  - intros v r f sz HH. apply (H v r f sz). 
    apply (header_shift (B "ID3" ++ [2; 0; 0; 0; 0; 0; 22] ++ repeat 0 22) (c :: audio)). exact HH.
Qed.

Lemma wit_sizes : exists ts1 w, tagset_sizes no_zlib Never wit_tag = Ok (32, 0, ts1) /\ emit_all no_zlib Never ts1 = (w, Ok ts1) /\
  len w = 33 /\ last w 0 = 65.
Proof. eexists _, _. split; [vm_compute; reflexivity|]. split; [vm_compute; reflexivity|]. split; reflexivity. Qed.

Lemma emplace_raw z e p ts m fs data l pd ts1 w o : let k := resolve (e_cwd e) p in
  find_node k fs = Some (File data) -> tags_from data 0 l -> tagset_sizes z m ts = Ok (tags_end 0 l, pd, ts1) ->
  emit_all z m ts1 = (w, o) -> data <> [] ->
  replace_tagset_emplace z e p ts m fs =
    ([set_node k (File (overlay data w)) fs], (o, set_node k (File (overlay data w)) fs)).
Proof.
  intros k Hk Hl Hz He Hd. unfold replace_tagset_emplace. cbv zeta. fold k.
  unfold tagset_size. rewrite Hk, (extant_ok _ _ Hl). rewrite fbind_lift, Hz, fbind_lift, N.eqb_refl. cbn [negb].
  destruct data as [|d data]; [congruence|]. rewrite He. reflexivity.
Qed.

Lemma wit_resolve : resolve (e_cwd wit_env) (B "a") = wit_key.
Proof. reflexivity. Qed.
Lemma find_head k n : find_node k [(k, n)] = Some n.
Proof. cbn [find_node]. now rewrite key_eqb_refl. Qed.

Lemma emplace_extended c audio : (forall v r f sz, ~ id3v2_header_at (c :: audio) 0 v r f sz) ->
  tags_from (wit_file (c :: audio)) 0 [mkHead 0 2 0 0 22] /\
  exists ts' w fs', replace_tagset_emplace no_zlib wit_env (B "a") wit_tag Never [(wit_key, File (wit_file (c :: audio)))] =
      ([fs'], (Ok ts', fs')) /\
    len w = 33 /\ find_node wit_key fs' = Some (File (w ++ audio)) /\ last w 0 = 65.
Proof.
  intros H. pose proof (wit_tags c audio H) as HT. split; [exact HT|].
  destruct wit_sizes as (ts1 & w & E1 & E2 & L & E3). exists ts1, w.
  set (fs := [(wit_key, File (wit_file (c :: audio)))]).
  assert (HK : find_node (resolve (e_cwd wit_env) (B "a")) fs = Some (File (wit_file (c :: audio)))) by (rewrite wit_resolve; apply find_head).
  assert (HZ : tagset_sizes no_zlib Never wit_tag = Ok (tags_end 0 [mkHead 0 2 0 0 22], 0, ts1)) by exact E1.
  rewrite (emplace_raw no_zlib wit_env (B "a") wit_tag Never fs (wit_file (c :: audio)) _ 0 ts1 w (Ok ts1) HK HT HZ E2).
  2:{ unfold wit_file. discriminate. }
  eexists. split; [reflexivity|]. split; [exact L|]. split; [|exact E3].
  rewrite wit_resolve, find_set_same. do 2 f_equal.
  assert (EW : wit_file (c :: audio) = (B "ID3" ++ [2; 0; 0; 0; 0; 0; 22] ++ repeat 0 22 ++ [c]) ++ audio)
    by (unfold wit_file; rewrite <- !app_assoc; reflexivity).
  assert (EL : len (B "ID3" ++ [2; 0; 0; 0; 0; 0; 22] ++ repeat 0 22 ++ [c]) = 33) by reflexivity.
  rewrite overlay_le.
  - f_equal. rewrite EW. apply dropN_app_exact. rewrite L. exact EL.
  - rewrite EW, len_app, L, EL. apply N.le_add_r.
Qed.

Lemma first_tag_size z m ts n pd t r n1 p1 t1 T : Forall simple_tag ts -> sizes z m ts = Ok (n, pd, t :: r) ->
  sizes z m [t] = Ok (n1, p1, [t1]) -> n - T + 10 <= n1 ->
  n - T - any_padding t <= base_size t (u_of z m t).
Proof.
  intros HS Hz H1 H2. destruct (sizes_settled z m ts (simple_sounds _ HS) n pd (t :: r) Hz) as (S1 & _ & _ & Hsame & _).
  assert (HS1 : Forall simple_tag (t :: r)) by (apply (same_all simple_tag ts (t :: r)); [exact simple_same|assumption..]).
  apply Forall_cons_iff in S1 as [S1 _]. apply Forall_cons_iff in HS1 as [P1 _].
  rewrite (sizes_stable z m [t] (Forall_cons _ S1 (Forall_nil _))) in H1. apply Ok_inj in H1.
  assert (E : n1 = full_size z m t + 10 + 0) by (injection H1; intros _ _ E; symmetry; exact E).
  assert (EF : full_size z m t = base_size t (u_of z m t) + any_padding t).
  { unfold full_size. destruct t as [t|t|t]; cbn [mult]; [lia..|contradiction]. }
  rewrite EF in E. lia.
Qed.
