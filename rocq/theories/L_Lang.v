(** * Lemmas: languages. *)
From Verif Require Import Base M_Charset M_Lang S_Lang.

Lemma bytes_eqb_refl' : forall a, bytes_eqb a a = true.
Proof. intros a. apply bytes_eqb_eq. reflexivity. Qed.

Lemma lookup_in : forall {A} (t : list (bytes * A)) k v, lookup_bytes t k = Some v -> In (k, v) t.
Proof.
  induction t as [|[k' v'] r IH]; cbn [lookup_bytes]; intros k v H; [discriminate|].
  destruct (bytes_eqb k k') eqn:E.
  - apply bytes_eqb_eq in E. left. congruence.
  - right. auto.
Qed.

Lemma lookup_some : forall {A} (t : list (bytes * A)) k, In k (map fst t) -> exists v, lookup_bytes t k = Some v.
Proof.
  induction t as [|[k' v'] r IH]; cbn [lookup_bytes map fst]; intros k H; [destruct H|].
  destruct (bytes_eqb k k') eqn:E; [eauto|]. destruct H as [H|H]; [|auto].
  subst. rewrite bytes_eqb_refl' in E. discriminate.
Qed.

Lemma lookup_none : forall {A} (t : list (bytes * A)) k, lookup_bytes t k = None -> ~ In k (map fst t).
Proof. intros A t k H Hin. destruct (lookup_some t k Hin) as [v E]. congruence. Qed.

(** ** Words *)

Lemma is_blank_iff : forall c, is_blank c = true <-> blank c.
Proof.
  intros c. unfold is_blank, blank. rewrite orb_true_iff, andb_true_iff, N.eqb_eq, !N.leb_le. reflexivity.
Qed.
Lemma is_blank_not : forall c, is_blank c = false <-> ~ blank c.
Proof. intros c. rewrite <- is_blank_iff. destruct (is_blank c); intuition congruence. Qed.

Lemma skip_split : forall s, exists pre, s = pre ++ skip_blanks s /\ Forall blank pre.
Proof.
  induction s as [|c r [pre [E F]]]; [exists []; auto|]. cbn [skip_blanks].
  destruct (is_blank c) eqn:K.
  - exists (c :: pre). split; [cbn [List.app]; congruence|]. constructor; [apply is_blank_iff; exact K|exact F].
  - exists []. auto.
Qed.
Lemma skip_head : forall s c r, skip_blanks s = c :: r -> ~ blank c.
Proof.
  induction s as [|x s IH]; cbn [skip_blanks]; intros c r H; [discriminate|].
  destruct (is_blank x) eqn:K; [eauto|]. apply is_blank_not. congruence.
Qed.
Lemma take_split : forall s, exists post, s = take_word s ++ post /\ Forall (fun c => ~ blank c) (take_word s) /\
  (post = [] \/ exists c r, post = c :: r /\ blank c).
Proof.
  induction s as [|c r [post [E [F K]]]]; [exists []; cbn [take_word]; auto|]. cbn [take_word].
  destruct (is_blank c) eqn:Kb.
  - exists (c :: r). repeat split; [constructor|]. right. exists c, r. split; [reflexivity|apply is_blank_iff; exact Kb].
  - exists post. repeat split; [cbn [List.app]; congruence| |exact K].
    constructor; [apply is_blank_not; exact Kb|exact F].
Qed.

Lemma word_first : forall s, first_word s (take_word (skip_blanks s)).
Proof.
  intros s. destruct (skip_split s) as [pre [E F]]. destruct (take_split (skip_blanks s)) as [post [E2 [F2 K]]].
  exists pre, post. repeat split; [congruence|exact F|exact F2|exact K|].
  intros Hw. rewrite Hw in E2. cbn [List.app] in E2.
  destruct (skip_blanks s) as [|c r] eqn:Es; [congruence|].
  pose proof (skip_head _ _ _ Es) as Nb. cbn [take_word] in Hw.
  apply is_blank_not in Nb. rewrite Nb in Hw. discriminate.
Qed.

Lemma skip_app : forall pre s, Forall blank pre -> skip_blanks (pre ++ s) = skip_blanks s.
Proof.
  induction pre as [|c r IH]; intros s F; [reflexivity|]. inversion F; subst. cbn [List.app skip_blanks].
  replace (is_blank c) with true by (symmetry; apply is_blank_iff; assumption). auto.
Qed.
Lemma take_app : forall w post, Forall (fun c => ~ blank c) w -> (post = [] \/ exists c r, post = c :: r /\ blank c) ->
  take_word (w ++ post) = w.
Proof.
  induction w as [|c r IH]; intros post F K; cbn [List.app].
  - destruct K as [-> | (c & r & -> & Hb)]; [reflexivity|]. cbn [take_word].
    apply is_blank_iff in Hb. rewrite Hb. reflexivity.
  - inversion F; subst. cbn [take_word].
    replace (is_blank c) with false by (symmetry; apply is_blank_not; assumption). f_equal. auto.
Qed.
Lemma word_unique : forall s w, first_word s w -> take_word (skip_blanks s) = w.
Proof.
  intros s w (pre & post & -> & Fp & Fw & K & Hn). rewrite (skip_app pre _ Fp).
  destruct w as [|c r].
  - rewrite (Hn eq_refl). reflexivity.
  - cbn [List.app skip_blanks]. inversion Fw; subst.
    replace (is_blank c) with false by (symmetry; apply is_blank_not; assumption).
    apply (take_app (c :: r) post Fw K).
Qed.

(** ** The tables *)

Definition in_b (x : bytes) (l : list bytes) : bool := existsb (bytes_eqb x) l.
Lemma in_b_iff : forall x l, in_b x l = true <-> In x l.
Proof.
  intros x l. unfold in_b. rewrite existsb_exists. split.
  - intros (y & H & E). apply bytes_eqb_eq in E. congruence.
  - intros H. exists x. split; [exact H|apply bytes_eqb_refl'].
Qed.

Lemma read_table_keys : map fst read_table = map (fun p => spelling (fst p)) iso_639.
Proof. vm_compute. reflexivity. Qed.
Lemma read_table_diag : map fst read_table = map snd read_table.
Proof. vm_compute. reflexivity. Qed.
Lemma write_table_diag : map fst write_table = map snd write_table.
Proof. vm_compute. reflexivity. Qed.
Lemma write_read_tables : map snd write_table = map fst read_table.
Proof. vm_compute. reflexivity. Qed.
Lemma cases_all : map snd write_table = iso_639_2_cases.
Proof. vm_compute. reflexivity. Qed.
Lemma enumerators_all : map fst write_table = enumerators.
Proof. vm_compute. reflexivity. Qed.

Lemma diag_in : forall (t : list (bytes * bytes)), map fst t = map snd t -> forall a b, In (a, b) t -> a = b.
Proof.
  induction t as [|[x y] r IH]; intros E a b H; [destruct H|]. cbn [map fst snd] in E.
  injection E as E1 E2. destruct H as [H|H]; [congruence|eauto].
Qed.

Lemma write_language_name : forall n s, write_language (Lang n) = Ok s -> n = s /\ In s (map fst read_table).
Proof.
  intros n s H. unfold write_language in H. destruct (lookup_bytes write_table n) as [x|] eqn:E; [|discriminate].
  assert (x = s) by congruence. subst x. apply lookup_in in E. split; [exact (diag_in _ write_table_diag _ _ E)|].
  rewrite <- write_read_tables. apply (in_map snd) in E. exact E.
Qed.
Lemma write_language_in : forall s, In s (map fst read_table) -> write_language (Lang s) = Ok s.
Proof.
  intros s H. unfold write_language. rewrite <- write_read_tables, <- write_table_diag in H.
  destruct (lookup_some write_table s H) as [v E]. rewrite E. f_equal. symmetry.
  exact (diag_in _ write_table_diag _ _ (lookup_in _ _ _ E)).
Qed.

Lemma read_word : forall text w, first_word text w -> In w (map fst read_table) -> read_language text = Ok (Lang w).
Proof.
  intros text w Hw Hin. unfold read_language. rewrite (word_unique _ _ Hw).
  destruct (lookup_some read_table w Hin) as [v E]. rewrite E. do 2 f_equal. symmetry.
  exact (diag_in _ read_table_diag _ _ (lookup_in _ _ _ E)).
Qed.
Lemma read_word_bad : forall text w, first_word text w -> ~ In w (map fst read_table) -> read_language text = Throw OutOfRange.
Proof.
  intros text w Hw Hin. unfold read_language. rewrite (word_unique _ _ Hw).
  destruct (lookup_bytes read_table w) as [v|] eqn:E; [|reflexivity].
  apply lookup_in in E. apply (in_map fst) in E. contradiction.
Qed.

Lemma keys_iff : forall w, In w (map fst read_table) <-> exists c, standard_code c /\ w = spelling c.
Proof.
  intros w. rewrite read_table_keys, in_map_iff. unfold standard_code. split.
  - intros (p & E & H). exists (fst p). split; [apply in_map; exact H|congruence].
  - intros (c & H & E). apply in_map_iff in H. destruct H as (p & E2 & H). exists p. split; congruence.
Qed.

Definition no_blank_b (s : bytes) : bool := forallb (fun c => negb (is_blank c)) s.
Lemma keys_words : forallb (fun s => no_blank_b s && (len s =? 3)) (map fst read_table) = true.
Proof. vm_compute. reflexivity. Qed.
Lemma key_word : forall w, In w (map fst read_table) -> first_word w w /\ len w = 3.
Proof.
  intros w H. pose proof (proj1 (forallb_forall _ _) keys_words w H) as K. apply andb_true_iff in K.
  destruct K as [K1 K2]. apply N.eqb_eq in K2. split; [|exact K2].
  exists [], []. rewrite app_nil_r. repeat split; auto.
  apply Forall_forall. intros c Hc. unfold no_blank_b in K1. rewrite forallb_forall in K1.
  specialize (K1 c Hc). apply is_blank_not. destruct (is_blank c); [discriminate|reflexivity].
Qed.

Lemma lang_write_read_l : forall l s, write_language l = Ok s -> read_language s = Ok l /\ len s = 3.
Proof.
  intros [|n] s H; [discriminate|]. destruct (write_language_name n s H) as [-> Hin].
  destruct (key_word s Hin) as [Hw Hl]. split; [exact (read_word s s Hw Hin)|exact Hl].
Qed.

Lemma lang_read_exact_l : forall text l, read_language text = Ok l <->
  exists c, standard_code c /\ first_word text (spelling c) /\ write_language l = Ok (spelling c).
Proof.
  intros text l. split.
  - intros H. pose proof (word_first text) as Hw. set (w := take_word (skip_blanks text)) in *.
    destruct (in_b w (map fst read_table)) eqn:E.
    + apply in_b_iff in E. rewrite (read_word text w Hw E) in H.
      assert (l = Lang w) by congruence. subst l. pose proof (write_language_in w E) as Hwr.
      apply keys_iff in E. destruct E as (c & Hc & Ew). exists c. rewrite <- Ew. auto.
    + rewrite (read_word_bad text w Hw) in H; [discriminate|]. intros K. apply in_b_iff in K. congruence.
  - intros (c & Hc & Hw & Hl). destruct l as [|n]; [discriminate|].
    destruct (write_language_name n _ Hl) as [-> Hin]. exact (read_word _ _ Hw Hin).
Qed.

Lemma lang_read_total_l : forall text, (exists l, read_language text = Ok l) \/ read_language text = Throw OutOfRange.
Proof. intros text. unfold read_language. destruct (lookup_bytes read_table _); eauto. Qed.

Lemma lang_capital_l : forall text c, In c capitalised -> first_word text c -> read_language text = Throw OutOfRange.
Proof.
  intros text c Hc Hw. apply (read_word_bad text c Hw). intros K. apply in_b_iff in K.
  assert (Hall : forallb (fun c => negb (in_b c (map fst read_table))) capitalised = true) by (vm_compute; reflexivity).
  rewrite forallb_forall in Hall. specialize (Hall c Hc). rewrite K in Hall. discriminate.
Qed.

Lemma to_iso_l : forall e n, In n (map fst read_table) -> language_to_iso_639_2 e (Lang n) = Ok n.
Proof.
  intros e n H. unfold language_to_iso_639_2. cbn [bind]. rewrite <- write_read_tables, cases_all in H.
  apply in_b_iff in H. unfold in_b in H. rewrite H. reflexivity.
Qed.
Lemma lang_code_l : forall e l s, write_language l = Ok s -> language_to_iso_639_2 e l = Ok s /\ comment_language e l = Ok s.
Proof.
  intros e [|n] s H; [discriminate|]. destruct (write_language_name n s H) as [-> Hin].
  split; [exact (to_iso_l e s Hin)|]. unfold comment_language. cbn [bind]. exact (to_iso_l e s Hin).
Qed.

(** ** The locale *)

Definition iso1_ok (p : bytes * bytes) : bool :=
  in_b (snd p) (map fst read_table) &&
  existsb (fun q => bytes_eqb (spelling (fst q)) (snd p) && bytes_eqb (snd q) (fst p)) iso_639 &&
  negb (bytes_eqb (fst p) []).
Lemma iso1_all : forallb iso1_ok iso_639_1_table = true.
Proof. vm_compute. reflexivity. Qed.
Lemma iso1_complete : forallb (fun q => bytes_eqb (snd q) [] || in_b (snd q) (map fst iso_639_1_table)) iso_639 = true.
Proof. vm_compute. reflexivity. Qed.

Lemma from_iso1 : forall c n, language_from_iso_639_1 c = Lang n ->
  In n (map fst read_table) /\ exists c3, same_language c c3 /\ n = spelling c3.
Proof.
  intros c n H. unfold language_from_iso_639_1 in H. destruct (lookup_bytes iso_639_1_table c) as [x|] eqn:E; [|discriminate].
  assert (x = n) by congruence. subst x. apply lookup_in in E.
  pose proof (proj1 (forallb_forall _ _) iso1_all _ E) as K. unfold iso1_ok in K. cbn [fst snd] in K.
  apply andb_true_iff in K. destruct K as [K K3]. apply andb_true_iff in K. destruct K as [K1 K2].
  apply in_b_iff in K1. split; [exact K1|]. apply existsb_exists in K2. destruct K2 as ([c3 c2] & Hin & K2).
  cbn [fst snd] in K2. apply andb_true_iff in K2. destruct K2 as [Ka Kb]. apply bytes_eqb_eq in Ka, Kb. subst c2.
  exists c3. split; [|congruence]. split; [exact Hin|]. intros ->. discriminate.
Qed.
Lemma from_iso1_none : forall c, (forall c3, ~ same_language c c3) -> language_from_iso_639_1 c = FromLocale.
Proof.
  intros c H. destruct (language_from_iso_639_1 c) as [|n] eqn:E; [reflexivity|].
  destruct (from_iso1 c n E) as (_ & c3 & Hs & _). destruct (H c3 Hs).
Qed.
Lemma from_iso1_some : forall c c3, same_language c c3 -> exists n, language_from_iso_639_1 c = Lang n.
Proof.
  intros c c3 [Hin Hne]. pose proof (proj1 (forallb_forall _ _) iso1_complete _ Hin) as K. cbn [snd] in K.
  apply orb_true_iff in K. destruct K as [K|K]; [apply bytes_eqb_eq in K; contradiction|].
  apply in_b_iff in K. destruct (lookup_some iso_639_1_table c K) as [v E].
  unfold language_from_iso_639_1. rewrite E. eauto.
Qed.

Lemma c_str_no_nul : forall s, ~ In 0 s -> c_str s = s.
Proof.
  induction s as [|c r IH]; intros H; [reflexivity|]. cbn [c_str]. cbn [In] in H.
  destruct (c =? 0) eqn:E; [apply N.eqb_eq in E; subst; tauto|]. f_equal. apply IH. tauto.
Qed.

Lemma two_letters_short : forall v, env_value v -> too_short v -> two_letters v = None.
Proof.
  intros [s|] He Hs; [|reflexivity]. cbn [two_letters]. rewrite (c_str_no_nul s (He s eq_refl)).
  specialize (Hs s eq_refl). replace (1 <? len s) with false; [reflexivity|]. symmetry. apply N.ltb_ge. lia.
Qed.
Lemma two_letters_long : forall s, env_value (Some s) -> 2 <= len s -> two_letters (Some s) = Some (takeN 2 s).
Proof.
  intros s He Hs. cbn [two_letters]. rewrite (c_str_no_nul s (He s eq_refl)).
  replace (1 <? len s) with true; [reflexivity|]. symmetry. apply N.ltb_lt. lia.
Qed.

Definition vars (e : locale_env) : list (option bytes) := [env_language e; env_lc_all e; env_lang e].

Lemma locale_code_is : forall e s, Forall env_value (vars e) -> locale_is (vars e) s -> locale_code e = Some (takeN 2 s).
Proof.
  intros [a b c] s Hv (pre & post & E & Hs & Hl). unfold vars in *. cbn [env_language env_lc_all env_lang] in *.
  unfold locale_code. cbn [env_language env_lc_all env_lang].
  inversion Hv as [|? ? Ha Hv1]; subst. inversion Hv1 as [|? ? Hb Hv2]; subst. inversion Hv2 as [|? ? Hc _]; subst.
  destruct pre as [|x pre]; cbn [List.app] in E.
  - injection E as -> _. rewrite (two_letters_long s Ha Hl). reflexivity.
  - injection E as -> E. inversion Hs as [|? ? Hx Hs1]; subst. rewrite (two_letters_short x Ha Hx).
    destruct pre as [|y pre]; cbn [List.app] in E.
    + injection E as -> _. rewrite (two_letters_long s Hb Hl). reflexivity.
    + injection E as -> E. inversion Hs1 as [|? ? Hy Hs2]; subst. rewrite (two_letters_short y Hb Hy).
      destruct pre as [|z pre]; cbn [List.app] in E.
      * injection E as -> _. exact (two_letters_long s Hc Hl).
      * injection E as _ E. destruct pre; discriminate.
Qed.
Lemma locale_code_none : forall e, Forall env_value (vars e) -> Forall too_short (vars e) -> locale_code e = None.
Proof.
  intros [a b c] Hv Hs. unfold vars in *. cbn [env_language env_lc_all env_lang] in *.
  unfold locale_code. cbn [env_language env_lc_all env_lang].
  inversion Hv as [|? ? Ha Hv1]; subst. inversion Hv1 as [|? ? Hb Hv2]; subst. inversion Hv2 as [|? ? Hc _]; subst.
  inversion Hs as [|? ? Ka Hs1]; subst. inversion Hs1 as [|? ? Kb Hs2]; subst. inversion Hs2 as [|? ? Kc _]; subst.
  rewrite (two_letters_short a Ha Ka), (two_letters_short b Hb Kb). exact (two_letters_short c Hc Kc).
Qed.

Lemma locale_known_l : forall e s c3, Forall env_value (vars e) -> locale_is (vars e) s -> same_language (takeN 2 s) c3 ->
  exists c, same_language (takeN 2 s) c /\ comment_language e FromLocale = Ok (spelling c).
Proof.
  intros e s c3 Hv Hi Hs. destruct (from_iso1_some _ _ Hs) as [n E]. destruct (from_iso1 _ _ E) as (Hin & c & Hc & ->).
  exists c. split; [exact Hc|]. unfold comment_language, language_from_locale. rewrite (locale_code_is e s Hv Hi).
  rewrite E. cbn [bind]. exact (to_iso_l e _ Hin).
Qed.
Lemma locale_unknown_l : forall e s, Forall env_value (vars e) -> locale_is (vars e) s ->
  (forall c3, ~ same_language (takeN 2 s) c3) ->
  language_from_locale e = Ok FromLocale /\ comment_language e FromLocale = Throw LogicError.
Proof.
  intros e s Hv Hi Hs. pose proof (from_iso1_none _ Hs) as E.
  assert (H : language_from_locale e = Ok FromLocale)
    by (unfold language_from_locale; rewrite (locale_code_is e s Hv Hi), E; reflexivity).
  split; [exact H|]. unfold comment_language. rewrite H. cbn [bind]. unfold language_to_iso_639_2. rewrite H. reflexivity.
Qed.
Lemma locale_unset_l : forall e, Forall env_value (vars e) -> Forall too_short (vars e) ->
  comment_language e FromLocale = Throw RuntimeError.
Proof.
  intros e Hv Hs. unfold comment_language, language_from_locale. rewrite (locale_code_none e Hv Hs). reflexivity.
Qed.
Lemma locale_prefix_l : forall e e' s s', Forall env_value (vars e) -> Forall env_value (vars e') ->
  locale_is (vars e) s -> locale_is (vars e') s' -> takeN 2 s = takeN 2 s' ->
  comment_language e FromLocale = comment_language e' FromLocale.
Proof.
  intros e e' s s' Hv Hv' Hi Hi' E. unfold comment_language, language_to_iso_639_2, language_from_locale.
  rewrite (locale_code_is e s Hv Hi), (locale_code_is e' s' Hv' Hi'), E. reflexivity.
Qed.
