(** * Lemmas: tag clouds, text form and editing. *)
From Verif Require Import Base M_Url M_Cloud S_Url S_Cloud L_Url L_Cloud.

(** One-step equations of the machine. *)
Lemma ptm_key_char c r token key m : c <> 61 -> c <> 38 ->
  parse_to_map (c :: r) true token key m = parse_to_map r true (token ++ [c]) key m.
Proof.
  intros H1 H2. cbn [parse_to_map].
  now rewrite (proj2 (N.eqb_neq c 61) H1), (proj2 (N.eqb_neq c 38) H2).
Qed.
Lemma ptm_val_char c r token key m : c <> 44 -> c <> 38 ->
  parse_to_map (c :: r) false token key m = parse_to_map r false (token ++ [c]) key m.
Proof.
  intros H1 H2. cbn [parse_to_map].
  now rewrite (proj2 (N.eqb_neq c 44) H1), (proj2 (N.eqb_neq c 38) H2).
Qed.

Lemma ptm_key_chars tok : forall r token key m, ~ In 61 tok -> ~ In 38 tok ->
  parse_to_map (tok ++ r) true token key m = parse_to_map r true (token ++ tok) key m.
Proof.
  induction tok as [|c tok IH]; intros r token key m H1 H2; [now rewrite app_nil_r|].
  cbn [app]. rewrite ptm_key_char.
  - rewrite IH by auto using in_cons. now rewrite <- app_assoc.
  - intros ->. apply H1, in_eq.
  - intros ->. apply H2, in_eq.
Qed.

Lemma ptm_val_chars tok : forall r token key m, ~ In 44 tok -> ~ In 38 tok ->
  parse_to_map (tok ++ r) false token key m = parse_to_map r false (token ++ tok) key m.
Proof.
  induction tok as [|c tok IH]; intros r token key m H1 H2; [now rewrite app_nil_r|].
  cbn [app]. rewrite ptm_val_char.
  - rewrite IH by auto using in_cons. now rewrite <- app_assoc.
  - intros ->. apply H1, in_eq.
  - intros ->. apply H2, in_eq.
Qed.

Lemma ptm_eq r token key t m : urldecode token = Ok t ->
  parse_to_map (61 :: r) true token key m = parse_to_map r false [] t m.
Proof. intros E. cbn [parse_to_map]. now rewrite E. Qed.
Lemma ptm_bare_amp r token key t m : urldecode token = Ok t -> mfind t m = None ->
  parse_to_map (38 :: r) true token key m = parse_to_map r true [] key (mset t [] m).
Proof. intros E F. cbn [parse_to_map]. change (38 =? 61) with false. cbv iota. rewrite E. cbn. now rewrite F. Qed.
Lemma ptm_bare_end token key t m : urldecode token = Ok t -> mfind t m = None ->
  parse_to_map [] true token key m = (Ok tt, mset t [] m).
Proof. intros E F. cbn [parse_to_map]. now rewrite E, F. Qed.
Lemma ptm_comma r token key t m : urldecode token = Ok t ->
  parse_to_map (44 :: r) false token key m = parse_to_map r false [] key (minsert key [t] m).
Proof. intros E. cbn [parse_to_map]. now rewrite E. Qed.
Lemma ptm_val_amp r token key t m : urldecode token = Ok t ->
  parse_to_map (38 :: r) false token key m = parse_to_map r true [] [] (minsert key [t] m).
Proof. intros E. cbn [parse_to_map]. change (38 =? 44) with false. cbv iota. now rewrite E. Qed.
Lemma ptm_val_end token key t m : urldecode token = Ok t ->
  parse_to_map [] false token key m = (Ok tt, minsert key [t] m).
Proof. intros E. cbn [parse_to_map]. now rewrite E. Qed.

(** While a key is being read, the previous key does not matter. *)
Lemma ptm_key_irrelevant text : forall token k1 k2 m,
  parse_to_map text true token k1 m = parse_to_map text true token k2 m.
Proof.
  induction text as [|c r IH]; intros token k1 k2 m; [reflexivity|]. cbn [parse_to_map].
  destruct (c =? 61); [reflexivity|]. destruct (c =? 38); [|apply IH].
  destruct (urldecode token); try reflexivity. destruct (mfind a m); [reflexivity|apply IH].
Qed.

(** ** Items *)
Definition exec_item (m : cmap) (i : item) : cmap :=
  match it_values i with
  | [] => mset (it_key i) [] m
  | vs => fold_left (fun m v => minsert (it_key i) [v] m) vs m
  end.

Lemma values_text raws : forall vals key m, Forall2 (denotes any) raws vals ->
  Forall (fun r => ~ In 44 r /\ ~ In 38 r) raws -> raws <> [] ->
  parse_to_map (separated 44 raws) false [] key m =
    (Ok tt, fold_left (fun m v => minsert key [v] m) vals m) /\
  forall rest, parse_to_map (separated 44 raws ++ 38 :: rest) false [] key m =
    parse_to_map rest true [] [] (fold_left (fun m v => minsert key [v] m) vals m).
Proof.
  induction raws as [|r raws IH]; intros vals key m Hd Hf Hne; [congruence|].
  inversion Hd as [|? v ? vals' Hd1 Hd2]; subst. inversion Hf as [|? ? [Hf1 Hf2] Hf3]; subst.
  apply decode_denotes in Hd1. destruct raws as [|r2 raws].
  - inversion Hd2; subst. cbn [separated fold_left]. split.
    + rewrite <- (app_nil_r r), ptm_val_chars by assumption. cbn [app]. now apply ptm_val_end.
    + intros rest. rewrite ptm_val_chars by assumption. cbn [app]. now apply ptm_val_amp.
  - change (separated 44 (r :: r2 :: raws)) with (r ++ [44] ++ separated 44 (r2 :: raws)).
    cbn [fold_left]. specialize (IH vals' key (minsert key [v] m) Hd2 Hf3 ltac:(discriminate)) as [I1 I2].
    split.
    + rewrite ptm_val_chars by assumption. cbn [app]. rewrite (ptm_comma _ _ _ v) by assumption. exact I1.
    + intros rest. rewrite <- app_assoc. rewrite ptm_val_chars by assumption. cbn [app].
      rewrite (ptm_comma _ _ _ v) by assumption. apply I2.
Qed.

Lemma item_step i m key : item_ok i -> (it_raw_values i = [] -> mfind (it_key i) m = None) ->
  parse_to_map (item_text i) true [] key m = (Ok tt, exec_item m i) /\
  forall rest, parse_to_map (item_text i ++ 38 :: rest) true [] key m =
    parse_to_map rest true [] key (exec_item m i).
Proof.
  intros (Hk & H1 & H2 & Hv & Hf) Hb. apply decode_denotes in Hk.
  unfold item_text, exec_item. destruct i as [rk rv k vs]. cbn [it_raw_key it_raw_values it_key it_values] in *.
  destruct rv as [|r rv].
  - inversion Hv; subst. rewrite !app_nil_r. specialize (Hb eq_refl). split.
    + rewrite <- (app_nil_r rk), ptm_key_chars by assumption. cbn [app]. now apply ptm_bare_end.
    + intros rest. rewrite ptm_key_chars by assumption. cbn [app]. now apply ptm_bare_amp.
  - destruct vs as [|v vs]; [inversion Hv|].
    destruct (values_text (r :: rv) (v :: vs) k m Hv Hf ltac:(discriminate)) as [V1 V2].
    split.
    + rewrite ptm_key_chars by assumption. cbn [app]. rewrite (ptm_eq _ _ _ k) by assumption. exact V1.
    + intros rest. rewrite <- app_assoc, ptm_key_chars by assumption. cbn [app].
      rewrite (ptm_eq _ _ _ k) by assumption. rewrite V2. apply ptm_key_irrelevant.
Qed.

Lemma minserts_spec k vs : forall m, is_map m ->
  let m' := fold_left (fun m v => minsert k [v] m) vs m in
  is_map m' /\
  (forall x, keyed m' x <-> (x = k /\ vs <> []) \/ keyed m x) /\
  (forall x v, paired m' x v <-> (x = k /\ In v vs) \/ paired m x v).
Proof.
  induction vs as [|v vs IH]; intros m Hm; cbn [fold_left].
  - split; [assumption|]. split; intros; cbn; intuition congruence.
  - destruct (IH (minsert k [v] m) (minsert_map _ _ _ Hm)) as (I1 & I2 & I3).
    split; [assumption|]. split.
    + intros x. rewrite I2, minsert_keyed by assumption. split.
      * intros [[-> _]|[->|H]]; auto; left; split; auto; discriminate.
      * intros [[-> _]|H]; auto.
    + intros x w. rewrite I3, minsert_paired by assumption. cbn. split.
      * intros [[-> H]|[[-> [->|[]]]|H]]; auto.
      * intros [[-> [->|H]]|H]; auto.
Qed.

Lemma exec_item_spec m i : is_map m -> (it_values i = [] -> ~ keyed m (it_key i)) ->
  is_map (exec_item m i) /\
  (forall k, keyed (exec_item m i) k <-> k = it_key i \/ keyed m k) /\
  (forall k v, paired (exec_item m i) k v <-> (k = it_key i /\ In v (it_values i)) \/ paired m k v).
Proof.
  intros Hm Hn. unfold exec_item. destruct (it_values i) as [|v vs] eqn:E.
  - specialize (Hn eq_refl). split; [apply mset_map; [assumption|constructor]|]. split.
    + intros k. apply mset_keyed, Hm.
    + intros k w. rewrite mset_paired by apply Hm. split.
      * intros [[_ []]|[_ H]]; auto.
      * intros [[_ []]|H]. right. split; [|assumption]. intros ->. apply Hn.
        destruct H as (s & Hs & _). now exists s.
  - destruct (minserts_spec (it_key i) (v :: vs) m Hm) as (H1 & H2 & H3).
    split; [exact H1|]. split; [|exact H3].
    intros k. rewrite H2. intuition discriminate.
Qed.

Lemma item_bare i : item_ok i -> (it_values i = [] <-> it_raw_values i = []).
Proof.
  intros (_ & _ & _ & H & _). destruct H; split; congruence.
Qed.

Lemma items_parse l : forall m0 m before key, is_map m0 -> is_map m -> l <> [] ->
  Forall item_ok l -> fresh_bare m0 before l ->
  (forall k, keyed m k <-> keyed m0 k \/ In k (map it_key before)) ->
  exists m', parse_to_map (items_text l) true [] key m = (Ok tt, m') /\ is_map m' /\
    (forall k, keyed m' k <-> keyed m k \/ In k (map it_key l)) /\
    (forall k v, paired m' k v <->
       paired m k v \/ exists i, In i l /\ it_key i = k /\ In v (it_values i)).
Proof.
  induction l as [|i l IH]; intros m0 m before key Hm0 Hm Hne Hok Hfr Hk; [congruence|].
  inversion Hok as [|? ? Hi Hl]; subst. inversion Hfr as [|? ? ? Hb Hfr']; subst.
  assert (Hbare : it_raw_values i = [] -> ~ keyed m (it_key i)).
  { intros E. destruct (Hb E) as [H1 H2]. rewrite Hk. tauto. }
  destruct (exec_item_spec m i Hm) as (E1 & E2 & E3).
  { intros E. now apply Hbare, item_bare. }
  destruct (item_step i m key Hi) as [S1 S2].
  { intros E. apply mfind_none; [apply Hm|now apply Hbare]. }
  destruct l as [|j l].
  - exists (exec_item m i). split; [exact S1|]. split; [exact E1|]. split.
    + intros k. rewrite E2. cbn. intuition.
    + intros k v. rewrite E3. split.
      * intros [[-> H]|H]; auto. right. exists i. cbn. auto.
      * intros [H|(j & [<-|[]] & <- & H)]; auto.
  - change (items_text (i :: j :: l)) with (item_text i ++ 38 :: items_text (j :: l)).
    rewrite S2.
    destruct (IH m0 (exec_item m i) (before ++ [i]) key Hm0 E1 ltac:(discriminate) Hl Hfr')
      as (m' & M1 & M2 & M3 & M4).
    { intros k. rewrite E2, Hk, map_app, in_app_iff. cbn. intuition. }
    exists m'. split; [exact M1|]. split; [exact M2|]. split.
    + intros k. rewrite M3, E2. cbn. intuition.
    + intros k v. rewrite M4, E3. split.
      * intros [[[-> H]|H]|(x & Hx & <- & H)]; auto.
        -- right. exists i. cbn. auto.
        -- right. exists x. cbn in *. auto.
      * intros [H|(x & [<-|Hx] & <- & H)]; auto. right. exists x. auto.
Qed.

Lemma parse_text_spec l m : is_map m -> l <> [] -> Forall item_ok l -> fresh_bare m [] l ->
  exists m', parse_text_to_map (items_text l) m = (Ok tt, m') /\ is_map m' /\
    (forall k, keyed m' k <-> keyed m k \/ In k (map it_key l)) /\
    (forall k v, paired m' k v <->
       paired m k v \/ exists i, In i l /\ it_key i = k /\ In v (it_values i)).
Proof.
  intros Hm Hne Hok Hfr. apply (items_parse l m m [] []); try assumption.
  intros k. cbn. tauto.
Qed.

(** ** The text form of a cloud *)
Definition items_of (m : cmap) : list item :=
  map (fun kv => mkItem (urlencode (fst kv)) (map urlencode (snd kv)) (fst kv) (snd kv)) m.

Lemma join_separated sep l : join sep l = separated sep l.
Proof. induction l as [|x [|y l] IH]; [reflexivity..|]. cbn [join separated] in *. now rewrite IH. Qed.

Lemma urlencoded_items m : urlencoded m = items_text (items_of m).
Proof.
  unfold urlencoded, items_text, items_of. rewrite join_separated, map_map. f_equal.
  apply map_ext_in. intros [k vs] _. unfold urlencoded_entry, item_text.
  cbn [fst snd it_raw_key it_raw_values]. destruct vs as [|v vs]; [reflexivity|].
  rewrite join_separated. reflexivity.
Qed.

Lemma denotes_any e s : denotes unreserved e s -> denotes any e s.
Proof. induction 1; constructor; auto; exact I. Qed.

Lemma urlencode_no s c : is_bytes s -> In c (B "&=,") -> ~ In c (urlencode s).
Proof.
  intros Hs Hc Hi. apply urlencode_chars in Hi; [|assumption].
  cbn in Hc. unfold unreserved in Hi. cbn in Hi. lia.
Qed.

Lemma items_of_ok m : bytes_map m -> Forall item_ok (items_of m).
Proof.
  intros H. apply Forall_forall. intros i Hi. unfold items_of in Hi.
  apply in_map_iff in Hi as ([k vs] & <- & Hi). unfold bytes_map in H. rewrite Forall_forall in H.
  apply H in Hi as [Hk Hv]. cbn [fst snd] in *.
  split; [apply denotes_any, encode_denotes, Hk|]. cbn [it_raw_key it_raw_values it_key it_values].
  split; [apply urlencode_no; [assumption|cbn; auto]|].
  split; [apply urlencode_no; [assumption|cbn; auto]|]. split.
  - induction Hv; cbn [map]; constructor; auto. now apply denotes_any, encode_denotes.
  - apply Forall_forall. intros r Hr. apply in_map_iff in Hr as (v & <- & Hr).
    rewrite Forall_forall in Hv. split; apply urlencode_no; try (now apply Hv); cbn; auto.
Qed.

Lemma items_of_fresh m : keys_sorted m -> forall before,
  (forall k, In k (map it_key before) -> ~ keyed m k) -> fresh_bare [] before (items_of m).
Proof.
  unfold keys_sorted. induction 1 as [|[k vs] m Hm IH Hx]; intros before Hb; [constructor|].
  cbn [items_of map fst snd]. constructor.
  - intros _. cbn [it_key]. split; [intros [s []]|]. intros Hi. apply (Hb k Hi). exists vs. now left.
  - apply IH. intros x Hi [s Hs]. rewrite map_app, in_app_iff in Hi.
    destruct Hi as [Hi|[<-|[]]].
    + apply (Hb x Hi). exists s. now right.
    + cbn in Hs. rewrite Forall_forall in Hx. exact (lex_irrefl _ (Hx _ Hs)).
Qed.

Lemma items_of_keys m k : In k (map it_key (items_of m)) <-> keyed m k.
Proof.
  unfold items_of, keyed. rewrite map_map. cbn. rewrite in_map_iff. split.
  - intros ([x s] & <- & H). now exists s.
  - intros [s H]. now exists (k, s).
Qed.

Lemma items_of_pairs m k v :
  (exists i, In i (items_of m) /\ it_key i = k /\ In v (it_values i)) <-> paired m k v.
Proof.
  unfold items_of, paired. split.
  - intros (i & Hi & <- & Hv). apply in_map_iff in Hi as ([x s] & <- & H). now exists s.
  - intros (s & Hs & Hv). eexists. split; [apply in_map_iff; exists (k, s); split; [reflexivity|exact Hs]|].
    cbn. auto.
Qed.

Lemma nil_map : is_map [].
Proof. split; constructor. Qed.

Lemma text_roundtrip_map m : is_map m -> bytes_map m -> m <> [] ->
  parse_text_to_map (urlencoded m) [] = (Ok tt, m).
Proof.
  intros Hm Hb Hne. rewrite urlencoded_items.
  destruct (parse_text_spec (items_of m) [] nil_map) as (m' & E & H1 & H2 & H3).
  - destruct m; [congruence|discriminate].
  - now apply items_of_ok.
  - apply items_of_fresh; [apply Hm|intros k []].
  - rewrite E. f_equal. apply map_ext; try assumption.
    + intros k. rewrite H2, items_of_keys. split; [intros [[s []]|H]; exact H|auto].
    + intros k v. rewrite H3, items_of_pairs. split; [intros [(s & [] & _)|H]; exact H|auto].
Qed.

(** ** Merging *)
Lemma merge_map_spec M : forall m, is_map m -> Forall (fun kv => is_set (snd kv)) M ->
  is_map (merge_map M m) /\
  (forall k, keyed (merge_map M m) k <-> keyed M k \/ keyed m k) /\
  (forall k v, paired (merge_map M m) k v <-> paired M k v \/ paired m k v).
Proof.
  unfold merge_map. induction M as [|[k s] M IH]; intros m Hm HM; cbn [fold_left fst snd].
  - split; [assumption|]. unfold keyed, paired. split; [intros k|intros k v]; split; auto.
    + intros [[s []]|H]; exact H.
    + intros [(s & [] & _)|H]; exact H.
  - inversion HM as [|? ? Hs HM']; subst. cbn in Hs.
    assert (G : exists m1, m1 = match mfind k m with Some _ => minsert k s m | None => mset k s m end /\
      is_map m1 /\ (forall x, keyed m1 x <-> x = k \/ keyed m x) /\
      (forall x v, paired m1 x v <-> (x = k /\ In v s) \/ paired m x v)).
    { eexists. split; [reflexivity|]. destruct (mfind k m) as [t|] eqn:E.
      - split; [now apply minsert_map|]. split; intros; [now apply minsert_keyed|now apply minsert_paired].
      - apply mfind_none in E; [|apply Hm]. split; [now apply mset_map|].
        split; intros; [apply mset_keyed, Hm|]. rewrite mset_paired by apply Hm. split.
        + intros [H|[_ H]]; auto.
        + intros [H|H]; auto. right. split; [|assumption]. intros ->. apply E.
          destruct H as (t & Ht & _). now exists t. }
    destruct G as (m1 & -> & G1 & G2 & G3).
    destruct (IH _ G1 HM') as (I1 & I2 & I3). split; [exact I1|]. split.
    + intros x. rewrite I2, G2. unfold keyed. cbn. split.
      * intros [[t Ht]|[->|H]]; eauto.
      * intros [[t [[= -> ->]|Ht]]|H]; eauto.
    + intros x v. rewrite I3, G3. unfold paired. cbn. split.
      * intros [(t & Ht & Hv)|[[-> Hv]|H]]; eauto 6.
      * intros [(t & [[= -> ->]|Ht] & Hv)|H]; eauto 6.
Qed.

Lemma merge_items c l : is_map (tc_tags c) -> l <> [] -> Forall item_ok l -> fresh_bare [] [] l ->
  exists c', cloud_apply c (CMerge (items_text l)) = (Ok tt, c') /\
    tc_owner c' = tc_owner c /\ is_map (tc_tags c') /\
    (forall k, keyed (tc_tags c') k <-> keyed (tc_tags c) k \/ In k (map it_key l)) /\
    (forall k v, paired (tc_tags c') k v <->
       paired (tc_tags c) k v \/ exists i, In i l /\ it_key i = k /\ In v (it_values i)).
Proof.
  intros Hm Hne Hok Hfr.
  destruct (parse_text_spec l [] nil_map Hne Hok Hfr) as (M & E & H1 & H2 & H3).
  unfold cloud_apply. rewrite E. eexists. split; [reflexivity|]. cbn [tc_owner tc_tags].
  split; [reflexivity|].
  destruct (merge_map_spec M (tc_tags c) Hm (proj2 H1)) as (K1 & K2 & K3).
  split; [exact K1|]. split.
  - intros k. rewrite K2, H2. split; [intros [[[s []]|H]|H]; auto|intros [H|H]; auto].
  - intros k v. rewrite K3, H3. split; [intros [[(s & [] & _)|H]|H]; auto|intros [H|H]; auto].
Qed.

Lemma merge_cloud c m : is_map (tc_tags c) -> is_map m -> bytes_map m -> m <> [] ->
  exists c', cloud_apply c (CMerge (urlencoded m)) = (Ok tt, c') /\
    tc_owner c' = tc_owner c /\ is_map (tc_tags c') /\
    (forall k, keyed (tc_tags c') k <-> keyed (tc_tags c) k \/ keyed m k) /\
    (forall k v, paired (tc_tags c') k v <-> paired (tc_tags c) k v \/ paired m k v).
Proof.
  intros Hc Hm Hb Hne. unfold cloud_apply. rewrite text_roundtrip_map by assumption.
  eexists. split; [reflexivity|]. cbn [tc_owner tc_tags]. split; [reflexivity|].
  destruct (merge_map_spec m (tc_tags c) Hc (proj2 Hm)) as (K1 & K2 & K3).
  split; [exact K1|]. split; intros; [rewrite K2|rewrite K3]; tauto.
Qed.

Lemma merge_failure c text r c' : cloud_apply c (CMerge text) = (r, c') -> r <> Ok tt -> c' = c.
Proof.
  unfold cloud_apply. destruct (parse_text_to_map text []) as [[[]| | |] M]; intros [= <- <-]; congruence.
Qed.

Lemma update_failure_refuted : exists c text r c', cloud_apply c (CUpdate text) = (r, c') /\
  r = Throw InvalidArgument /\ keyed (tc_tags c) (B "mood") /\ ~ keyed (tc_tags c') (B "mood").
Proof.
  exists (mkCloud [] [(B "mood", [B "calm"])]), (B "a=%zz"). do 2 eexists.
  split; [vm_compute; reflexivity|]. split; [reflexivity|]. split.
  - eexists. left. reflexivity.
  - intros [s []].
Qed.

Lemma empty_text_refuted : exists m, is_map m /\ bytes_map m /\
  parse_text_to_map (urlencoded m) [] <> (Ok tt, m).
Proof. exists []. split; [exact nil_map|]. split; [constructor|]. vm_compute. discriminate. Qed.

(** ** Histories *)
Lemma ptm_map text : forall pk token key m r m', is_map m ->
  parse_to_map text pk token key m = (r, m') -> is_map m'.
Proof.
  induction text as [|c text IH]; intros pk token key m r m' Hm; cbn [parse_to_map].
  - destruct pk; destruct (urldecode token) as [t| | |]; try (intros [= <- <-]; assumption).
    + destruct (mfind t m); intros [= <- <-]; [assumption|]. apply mset_map; [assumption|constructor].
    + intros [= <- <-]. now apply minsert_map.
  - destruct pk.
    + destruct (c =? 61).
      * destruct (urldecode token) as [t| | |]; try (intros [= <- <-]; assumption). now apply IH.
      * destruct (c =? 38); [|now apply IH].
        destruct (urldecode token) as [t| | |]; try (intros [= <- <-]; assumption).
        destruct (mfind t m); [intros [= <- <-]; assumption|]. apply IH.
        apply mset_map; [assumption|constructor].
    + destruct (c =? 44).
      * destruct (urldecode token) as [t| | |]; try (intros [= <- <-]; assumption).
        apply IH. now apply minsert_map.
      * destruct (c =? 38); [|now apply IH].
        destruct (urldecode token) as [t| | |]; try (intros [= <- <-]; assumption).
        apply IH. now apply minsert_map.
Qed.

Lemma reset_map_map init : is_map (reset_map init).
Proof.
  unfold reset_map. assert (G : forall l m, is_map m -> is_map (fold_left
    (fun m kv => match mfind (fst kv) m with
                 | Some _ => m
                 | None => mset (fst kv) (fold_left (fun s v => sinsert v s) (snd kv) []) m
                 end) l m)).
  { induction l as [|kv l IH]; intros m Hm; [assumption|]. cbn [fold_left]. apply IH.
    destruct (mfind (fst kv) m); [assumption|]. apply mset_map; [assumption|].
    apply sinserts_set. constructor. }
  apply G, nil_map.
Qed.

Lemma op_map c op r c' : is_map (tc_tags c) -> cloud_apply c op = (r, c') -> is_map (tc_tags c').
Proof.
  intros Hm. destruct op as [k|k v|init|text|text]; cbn [cloud_apply].
  - intros [= <- <-]. cbn. destruct (mfind k (tc_tags c)); [assumption|].
    apply mset_map; [assumption|constructor].
  - intros [= <- <-]. now apply minsert_map.
  - intros [= <- <-]. apply reset_map_map.
  - destruct (parse_text_to_map text []) as [o M] eqn:E.
    apply ptm_map in E; [|apply nil_map].
    destruct o as [[]| | |]; intros [= <- <-]; try assumption.
    apply merge_map_spec; [assumption|apply E].
  - destruct (parse_text_to_map text []) as [o M] eqn:E.
    apply ptm_map in E; [|apply nil_map]. intros [= <- <-]. exact E.
Qed.

Lemma history_map ops : forall c, is_map (tc_tags c) ->
  is_map (tc_tags (fold_left (fun c op => snd (cloud_apply c op)) ops c)).
Proof.
  induction ops as [|op ops IH]; intros c Hm; [assumption|]. cbn [fold_left]. apply IH.
  destruct (cloud_apply c op) as [r c'] eqn:E. exact (op_map _ _ _ _ Hm E).
Qed.

Lemma has_key_spec c k : is_map (tc_tags c) -> (has_key c k = true <-> keyed (tc_tags c) k).
Proof.
  intros [H _]. unfold has_key. destruct (mfind k (tc_tags c)) as [s|] eqn:E.
  - apply mfind_in in E; [|assumption]. split; [now exists s|reflexivity].
  - apply mfind_none in E; [|assumption]. split; [discriminate|contradiction].
Qed.

Lemma has_value_spec c k v : is_map (tc_tags c) -> (has_value c k v = true <-> paired (tc_tags c) k v).
Proof.
  intros [H _]. unfold has_value. destruct (mfind k (tc_tags c)) as [s|] eqn:E.
  - apply mfind_in in E; [|assumption]. rewrite existsb_exists. split.
    + intros (x & Hx & Hc). exists s. split; [assumption|].
      destruct (bcmp_spec v x); try discriminate. now subst.
    + intros (t & Ht & Hv). exists v. split; [now rewrite (map_fun k s t (tc_tags c))|].
      now rewrite (proj2 (bcmp_eq v v) eq_refl).
  - apply mfind_none in E; [|assumption]. split; [discriminate|].
    intros (t & Ht & _). destruct E. now exists t.
Qed.

Lemma add_spec c k v : is_map (tc_tags c) ->
  let c' := snd (cloud_apply c (CAddValue k v)) in
  tc_owner c' = tc_owner c /\
  (forall x, keyed (tc_tags c') x <-> x = k \/ keyed (tc_tags c) x) /\
  (forall x w, paired (tc_tags c') x w <-> (x = k /\ w = v) \/ paired (tc_tags c) x w).
Proof.
  intros Hm. cbn [cloud_apply snd tc_tags tc_owner]. split; [reflexivity|]. split.
  - intros x. now apply minsert_keyed.
  - intros x w. rewrite minsert_paired by assumption. cbn. intuition.
Qed.

Lemma add_key_spec c k : is_map (tc_tags c) ->
  let c' := snd (cloud_apply c (CAddKey k)) in
  tc_owner c' = tc_owner c /\
  (forall x, keyed (tc_tags c') x <-> x = k \/ keyed (tc_tags c) x) /\
  (forall x w, paired (tc_tags c') x w <-> paired (tc_tags c) x w).
Proof.
  intros Hm. cbn [cloud_apply snd tc_tags tc_owner]. split; [reflexivity|].
  destruct (mfind k (tc_tags c)) as [s|] eqn:E.
  - apply mfind_in in E; [|apply Hm]. split; [|tauto]. intros x. split; [auto|].
    intros [->|H]; [now exists s|assumption].
  - apply mfind_none in E; [|apply Hm]. split; [intros; apply mset_keyed, Hm|].
    intros x w. rewrite mset_paired by apply Hm. split.
    + intros [[_ []]|[_ H]]; exact H.
    + intros H. right. split; [|assumption]. intros ->. apply E.
      destruct H as (s & Hs & _). now exists s.
Qed.

(** A NUL in a key makes the binary form ambiguous. *)
Lemma nul_key_refuted : exists (ops : list cloud_op) (c : cloud),
  c = fold_left (fun c op => snd (cloud_apply c op)) ops (mkCloud [] []) /\ parse_cloud (write_cloud c) <> Ok c.
Proof. exists [CMerge (B "a%00b=c")]. eexists. split; [reflexivity|]. vm_compute. discriminate. Qed.
