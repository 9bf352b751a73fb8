(** * Proofs about templates: what they give for a file (C83). *)
From Verif Require Import Base M_Charset M_Csv M_Genres M_Fs M_Tbt S_Tbt S_Tbt2 L_Tbt L_Tbt2 L_Tbt3 L_Tbt4 L_Tbt6 L_Fs L_Csv.
#[local] Open Scope N_scope.

(** ** Texts of ID3v1 fields. *)
Lemma bom_cases raw : no_bom raw \/ (exists r, raw = 0xef :: 0xbb :: 0xbf :: r) \/ (exists r, raw = 0xfe :: 0xff :: r) \/ (exists r, raw = 0xff :: 0xfe :: r).
Proof.
  destruct raw as [|a r]; [left; repeat split; discriminate|].
  destruct (N.eq_dec a 0xef) as [->|A1].
  { destruct r as [|b r]; [left; repeat split; discriminate|]. destruct (N.eq_dec b 0xbb) as [->|B1]; [|left; repeat split; congruence].
    destruct r as [|d r]; [left; repeat split; discriminate|]. destruct (N.eq_dec d 0xbf) as [->|D1]; [|left; repeat split; congruence]. right. left. eauto. }
  destruct (N.eq_dec a 0xfe) as [->|A2].
  { destruct r as [|b r]; [left; repeat split; discriminate|]. destruct (N.eq_dec b 0xff) as [->|B1]; [|left; repeat split; congruence]. right. right. left. eauto. }
  destruct (N.eq_dec a 0xff) as [->|A3].
  { destruct r as [|b r]; [left; repeat split; discriminate|]. destruct (N.eq_dec b 0xfe) as [->|B1]; [|left; repeat split; congruence]. right. right. right. eauto. }
  left. repeat split; congruence.
Qed.
Lemma encoded_fun raw e x y : v1_encoded raw e x -> v1_encoded raw e y -> x = y.
Proof. intros H1 H2. inversion H1; subst; inversion H2; subst; try congruence; cbn in *; congruence. Qed.
Lemma v1_read ic raw e : raw <> [] -> ~ guessed e raw -> exists x, v1_encoded raw e x /\ v1_text_to_utf8 ic raw e = to_string ic raw x E_UTF_8 NoFail.
Proof.
  intros HR HG. destruct raw as [|a r]; [congruence|]. unfold v1_text_to_utf8.
  destruct e; try (eexists; split; [apply en_named; reflexivity|reflexivity]).
  destruct (bom_cases (a :: r)) as [K|[(q & K)|[(q & K)|(q & K)]]].
  - elim HG. split; [reflexivity|]. split; [exact HR|now left].
  - rewrite K. eexists. split; [eapply en_utf8; reflexivity|reflexivity].
  - rewrite K. eexists. split; [eapply en_be; reflexivity|reflexivity].
  - elim HG. split; [reflexivity|]. split; [exact HR|eauto].
Qed.
Lemma to_string_error ic b x d k : to_string ic b x d k <> Throw TemplateError.
Proof. unfold to_string. destruct (negb _); [discriminate|]. destruct b; [discriminate|]. destruct (ic x d k (n :: b)); discriminate. Qed.
Lemma v1_means_iff ic raw e t : raw <> [] -> ~ guessed e raw -> (v1_text_to_utf8 ic raw e = Ok t <-> v1_means ic e raw t).
Proof.
  intros HR HG. destruct (v1_read ic raw e HR HG) as (x & X & E). rewrite E. split.
  - intros H. right. split; [exact HR|]. eauto.
  - intros [[K _]|[_ (y & Y & H)]]; [congruence|]. now rewrite (encoded_fun _ _ _ _ X Y).
Qed.

Lemma needs_dec p v2 : {needs_v1 p v2} + {~ needs_v1 p v2}.
Proof.
  unfold needs_v1. destruct p; [destruct v2; [left|right]|left|right|left]; try tauto; intros [|[|[]]]; discriminate.
Qed.
Lemma source_l ic raw opt v2 p e : nonempty opt = match v2 with [] => None | s => Some s end ->
  (needs_v1 p v2 -> ~ guessed e raw) -> (p = PreferV1 -> raw <> [] -> ~ v1_means ic e raw []) ->
  (forall t, source_text ic raw opt p e = Ok t <-> chosen ic p e raw v2 t /\ t <> []) /\
  (source_text ic raw opt p e = Throw TemplateError <-> chosen ic p e raw v2 []).
Proof.
  intros HO HG HB. unfold chosen. destruct (needs_dec p v2) as [HN|HN].
  2:{ unfold source_text. rewrite HO. destruct p; try (elim HN; unfold needs_v1; tauto).
      - destruct v2 as [|a r]; [elim HN; unfold needs_v1; tauto|]. split.
        + intros t. split; [intros H; injection H as <-; split; [tauto|discriminate]|]. intros [[(v & _ & K & _)|[_ ->]] _]; [contradiction|reflexivity].
        + split; [discriminate|]. intros [(v & _ & K & _)|[_ K]]; [contradiction|discriminate].
      - destruct v2 as [|a r]; split; try intros t; (split; [intros H; try discriminate H; try (injection H as <-); try (split; [tauto|discriminate]); tauto|]).
        + intros [[(v & _ & K & _)|[_ ->]] J]; [contradiction|congruence].
        + reflexivity.
        + intros [[(v & _ & K & _)|[_ ->]] J]; [contradiction|reflexivity].
        + intros [(v & _ & K & _)|[_ K]]; [contradiction|discriminate]. }
  specialize (HG HN). destruct raw as [|a r].
  { assert (M : forall v, v1_means ic e [] v <-> v = []). { intros v. split; [intros [[_ K]|[K _]]; [exact K|congruence]|intros ->; left; auto]. }
    assert (C : forall t, (exists v, v1_means ic e [] v /\ needs_v1 p v2 /\ t = preferred p v v2) \/ ~ needs_v1 p v2 /\ t = v2 <-> t = preferred p [] v2).
    { intros t. split; [intros [(v & K & _ & ->)|[K _]]; [apply M in K; now subst|contradiction]|intros ->; left; exists []; split; [now apply M|tauto]]. }
    unfold source_text. rewrite HO. split; [intros t|]; rewrite C; destruct p; cbn [preferred]; destruct v2; split; try congruence; try (intros [J1 J2]; congruence); try (intros H; injection H as <-; split; [reflexivity|discriminate]); try reflexivity; intros H; try discriminate H;
      destruct HN as [K|[K|[K J]]]; discriminate. }
  set (raw := a :: r) in *. assert (HR : raw <> []) by discriminate. assert (E : forall X Y : outcome bytes, match raw with [] => X | _ :: _ => Y end = Y) by reflexivity.
  assert (C : forall t, (exists v, v1_means ic e raw v /\ needs_v1 p v2 /\ t = preferred p v v2) \/ ~ needs_v1 p v2 /\ t = v2 <-> v1_means ic e raw t).
  { intros t. split.
    - intros [(v & K & _ & ->)|[K _]]; [|contradiction]. destruct HN as [->|[->|[-> ->]]]; cbn [preferred]; try exact K. destruct v; [elim (HB eq_refl HR K)|exact K].
    - intros K. left. exists t. split; [exact K|]. split; [exact HN|]. destruct HN as [->|[->|[-> ->]]]; cbn [preferred]; try reflexivity.
      destruct t; [elim (HB eq_refl HR K)|reflexivity]. }
  set (T := let* s := v1_text_to_utf8 ic raw e in match s with [] => Throw TemplateError | _ => Ok s end).
  assert (G : source_text ic raw opt p e = T).
  { unfold source_text. rewrite HO. destruct HN as [->|[->|[-> ->]]]; reflexivity. }
  split.
  - intros t. rewrite C, <- (v1_means_iff ic raw e t HR HG). rewrite G. unfold T. destruct (v1_text_to_utf8 ic raw e) as [s| | |]; cbn [bind]; try (split; [discriminate|intros [K _]; discriminate]).
    destruct s; split; try discriminate; [intros [K1 K2]; congruence|intros H; injection H as <-; split; [reflexivity|discriminate]|tauto].
  - rewrite C, <- (v1_means_iff ic raw e [] HR HG). rewrite G. unfold T. destruct (v1_read ic raw e HR HG) as (x & _ & E').
    pose proof (to_string_error ic raw x E_UTF_8 NoFail) as TE. rewrite E'. destruct (to_string ic raw x E_UTF_8 NoFail) as [s| | |]; cbn [bind]; [destruct s| | |]; split; congruence.
Qed.

(** ** Adapting texts. *)
Lemma article_iff ct x t u : article ct x t u <-> u = do_the_xform ct t x.
Proof.
  split.
  - intros H. destruct H.
    + symmetry. apply (the_suffix ct a (c :: r)); [assumption|discriminate].
    + symmetry. apply the_suffix_other. intros a r E HS. destruct r as [|c r]; [reflexivity|]. elim (H _ _ _ HS E).
    + symmetry. now apply the_prefix.
    + symmetry. apply the_prefix_other. intros a r E HS. elim (H _ _ HS E).
    + reflexivity.
  - intros ->. destruct x.
    + constructor.
    + unfold do_the_xform. destruct ((5 <=? len t) && iequals ct (B ", The") (dropN (len t - 5) t)) eqn:E.
      * apply andb_true_iff in E as [_ E]. apply iequals_spells in E. pose proof (ar_prefix ct _ (takeN (len t - 5) t) E) as A. rewrite takeN_dropN in A. exact A.
      * apply ar_prefix_no. intros a r HS ->. rewrite len_app in E. pose proof (spells_len _ _ _ HS) as L. change (len (B ", The")) with 5 in L.
        replace (len r + len a - 5) with (len r) in E by lia. rewrite dropN_app_exact in E by reflexivity. apply iequals_spells in HS. rewrite HS in E.
        destruct (N.leb_spec 5 (len r + len a)); [discriminate E|lia].
    + unfold do_the_xform. destruct ((5 <=? len t) && iequals ct (B "The ") (takeN 4 t)) eqn:E.
      * apply andb_true_iff in E as [E0 E]. apply N.leb_le in E0. apply iequals_spells in E. destruct (dropN 4 t) as [|c r] eqn:D.
        { pose proof (len_dropN 4 t) as L. rewrite D in L. change (len (@nil N)) with 0 in L. lia. }
        pose proof (ar_suffix ct _ c r E) as A. rewrite <- D, takeN_dropN in A. exact A.
      * apply ar_suffix_no. intros a c r HS ->. rewrite len_app, len_cons in E. pose proof (spells_len _ _ _ HS) as L. change (len (B "The ")) with 4 in L.
        rewrite takeN_app_exact in E by exact L. apply iequals_spells in HS. rewrite HS in E.
        destruct (N.leb_spec 5 (len a + (1 + len r))); [discriminate E|lia].
Qed.
Lemma article_nonempty ct x t : t <> [] -> do_the_xform ct t x <> [].
Proof.
  intros H. unfold do_the_xform. destruct x; [|destruct (_ && _)|destruct (_ && _)]; try exact H; [discriminate|].
  intros E. apply app_eq_nil in E as [_ E]. discriminate.
Qed.
Lemma cased_iff ct x t u : (x = Capitalize -> t <> []) -> (do_cap_xform ct t x = Ok u <-> cased ct x t u).
Proof.
  intros H. split.
  - intros E. destruct x; cbn [do_cap_xform] in E; try (destruct t as [|c r]; [discriminate|]; injection E as <-; constructor); injection E as <-; constructor.
  - intros K. destruct K; try reflexivity. elim (H eq_refl eq_refl).
Qed.
Lemma spaced_iff cp w t u : spaced cp w t u <-> u = do_ws_xform t cp w.
Proof.
  unfold spaced. destruct w as [|a w].
  - destruct cp; [rewrite ws_compress|rewrite ws_none]; split; try (intros ->; tauto); intros [(K & J & L)|[(K & L)|(K & J & L)]]; congruence.
  - rewrite ws_each by discriminate. split; [intros [(K & J & L)|[(K & L)|(K & J & L)]]; congruence|]. intros ->. right. left. split; [discriminate|reflexivity].
Qed.
Lemma encoded_iff ic o t u : encode ic t o = Ok u <-> encoded_as ic o t u.
Proof. split; [intros H; destruct o; cbn [encode] in H; try (constructor; exact H); injection H as <-; constructor|]. intros H. destruct H; auto. Qed.
Lemma encode_error ic o t : encode ic t o <> Throw TemplateError.
Proof. destruct o; cbn [encode]; try discriminate; apply to_string_error. Qed.
Lemma cap_error ct t x : do_cap_xform ct t x <> Throw TemplateError.
Proof. destruct x; cbn; try discriminate. destruct t; discriminate. Qed.
Lemma xform_iff ct ic o t s : t <> [] -> (xform_and_encode ct ic o t = Ok s <-> exists u v w, article ct (a_the o) t u /\ cased ct (a_cap o) u v /\
  spaced (a_compress o) (a_replace o) v w /\ encoded_as ic (a_out o) w s).
Proof.
  intros HT. pose proof (article_nonempty ct (a_the o) t HT) as HU. unfold xform_and_encode. split.
  - intros H. destruct (do_cap_xform ct (do_the_xform ct t (a_the o)) (a_cap o)) as [v| | |] eqn:E; try discriminate. cbn [bind] in H.
    exists (do_the_xform ct t (a_the o)), v, (do_ws_xform v (a_compress o) (a_replace o)). split; [now apply article_iff|]. split; [apply cased_iff; auto|].
    split; [now apply spaced_iff|now apply encoded_iff].
  - intros (u & v & w & H1 & H2 & H3 & H4). apply article_iff in H1. subst u. apply cased_iff in H2; [|auto]. rewrite H2. cbn [bind]. apply spaced_iff in H3. subst w. now apply encoded_iff.
Qed.
Lemma xform_error ct ic o t : xform_and_encode ct ic o t <> Throw TemplateError.
Proof. unfold xform_and_encode. pose proof (cap_error ct (do_the_xform ct t (a_the o)) (a_cap o)). destruct (do_cap_xform _ _ _); cbn [bind]; try congruence. apply encode_error. Qed.

(** ** Names and numbers. *)
Lemma numeral_loop fuel n : (N.to_nat (N.log2 n) < fuel)%nat -> numeral n (number_loop 10 fuel n).
Proof.
  revert n. induction fuel as [|k IH]; intros n Hf; [lia|]. cbn [number_loop]. destruct (N.ltb_spec n 10) as [H|H].
  - unfold digit. rewrite (proj2 (N.ltb_lt n 10)) by exact H. now constructor.
  - assert (M : n mod 10 < 10) by (apply N.mod_lt; lia). unfold digit at 1. rewrite (proj2 (N.ltb_lt _ 10) M).
    assert (E : n = n / 10 * 10 + n mod 10) by (pose proof (N.div_mod n 10 ltac:(lia)); lia).
    assert (P : 0 < n / 10) by (apply N.div_str_pos; lia). rewrite E at 1. apply nu_more; [exact P|exact M|]. apply IH. apply fuel_div; lia.
Qed.
Lemma numeral_fun n s : numeral n s -> forall t, numeral n t -> s = t.
Proof.
  induction 1 as [d Hd|n d s Hn Hd HS IH]; intros t H.
  - inversion H as [d' Hd' E|n' d' s' Hn' Hd' HS' E]; subst; [reflexivity|lia].
  - inversion H as [d' Hd' E|n' d' s' Hn' Hd' HS' E]; subst; [lia|]. assert (n' = n /\ d' = d) as [-> ->] by lia. now rewrite (IH _ HS').
Qed.
Lemma numeral_iff n s : numeral n s <-> s = number 10 n.
Proof. assert (H : numeral n (number 10 n)) by (apply numeral_loop; lia). split; [intros K; exact (numeral_fun _ _ K _ H)|now intros ->]. Qed.

Lemma until_spec r : exists q, r = until_slash r ++ q /\ ~ In 47 (until_slash r) /\ (q = [] \/ exists q', q = 47 :: q').
Proof.
  induction r as [|c r (q & E & H & Q)]; [exists []; cbn; auto|]. cbn [until_slash]. destruct (N.eqb_spec c 47) as [->|Hc]; [exists (47 :: r); split; [reflexivity|]; split; [intros []|right; eauto]|].
  exists q. cbn [app]. split; [now f_equal|]. split; [intros [K|K]; [congruence|contradiction]|exact Q].
Qed.
Lemma until_app a q : ~ In 47 a -> (q = [] \/ exists q', q = 47 :: q') -> until_slash (a ++ q) = a.
Proof.
  intros H Q. induction a as [|c a IH]; cbn [app until_slash].
  - destruct Q as [->|(q' & ->)]; reflexivity.
  - destruct (N.eqb_spec c 47) as [->|]; [elim H; now left|]. f_equal. apply IH. intros K. apply H. now right.
Qed.
Lemma last_part_iff p n : last_part p n <-> n = filename p.
Proof.
  unfold last_part, filename. split.
  - intros [H (d & -> & D)]. rewrite rev_app_distr, until_app.
    + now rewrite rev_involutive.
    + now rewrite <- in_rev.
    + destruct D as [->|(d' & ->)]; [now left|]. right. rewrite rev_app_distr. cbn. eauto.
  - intros ->. destruct (until_spec (rev p)) as (q & E & H & Q). split; [now rewrite <- in_rev|]. exists (rev q). split.
    + rewrite <- rev_app_distr, <- E. now rewrite rev_involutive.
    + destruct Q as [->|(q' & ->)]; [now left|]. right. exists (rev q'). reflexivity.
Qed.

Lemma last_dot_none r : last_dot r = None -> ~ In 46 r.
Proof.
  induction r as [|c r IH]; cbn [last_dot]; [intros _ []|]. destruct (N.eqb_spec c 46) as [->|]; [discriminate|]. destruct (last_dot r) as [[e s]|]; [discriminate|].
  intros _ [K|K]; [congruence|exact (IH eq_refl K)].
Qed.
Lemma last_dot_some r e s : last_dot r = Some (e, s) -> exists x, e = x ++ [46] /\ ~ In 46 x /\ r = x ++ 46 :: s.
Proof.
  revert e s. induction r as [|c r IH]; intros e s H; cbn [last_dot] in H; [discriminate|]. destruct (N.eqb_spec c 46) as [->|Hc].
  - injection H as <- <-. exists []. cbn. auto.
  - destruct (last_dot r) as [[e' s']|]; [|discriminate]. injection H as <- <-. destruct (IH _ _ eq_refl) as (x & -> & HX & ->). exists (c :: x).
    split; [reflexivity|]. split; [intros [K|K]; [congruence|contradiction]|reflexivity].
Qed.
Lemma split_one n s e : name_split n s e -> split_ext n = (s, e).
Proof.
  intros H. unfold split_ext. destruct H as [s e E HS HD HE|H].
  - assert (F : bytes_eqb n [46] || bytes_eqb n [46; 46] = false).
    { apply orb_false_iff. split.
      - destruct (bytes_eqb_spec n [46]) as [K|]; [|reflexivity]. rewrite K in E. destruct s as [|a [|b s]]; [congruence|discriminate|discriminate].
      - destruct (bytes_eqb_spec n [46; 46]) as [K|]; [|reflexivity]. elim HD. exact K. }
    rewrite F, E, rev_app_distr. cbn [rev]. rewrite <- app_assoc. cbn [app]. rewrite no_dot_last by (now rewrite <- in_rev).
    destruct (rev s) as [|a q] eqn:R; [elim HS; apply (f_equal (@rev N)) in R; now rewrite rev_involutive in R|].
    rewrite <- R, rev_involutive, rev_app_distr, rev_involutive. reflexivity.
  - destruct (_ || _) eqn:F; [reflexivity|]. destruct (last_dot (rev n)) as [[e s]|] eqn:D; [|reflexivity]. destruct s as [|a s]; [reflexivity|]. exfalso.
    apply last_dot_some in D as (x & -> & HX & D). apply (f_equal (@rev N)) in D. rewrite rev_involutive, rev_app_distr in D. cbn [rev] in D. rewrite <- !app_assoc in D. cbn [app] in D.
    apply HX. apply in_rev. apply orb_false_iff in F as [_ F]. apply (H (rev s ++ [a]) (rev x)).
    + rewrite <- app_assoc. exact D.
    + intros K. apply app_eq_nil in K as [_ K]. discriminate.
    + intros K. change (B "..") with [46; 46] in K. rewrite K in F. discriminate F.
Qed.
Lemma split_some n : exists s e, name_split n s e.
Proof.
  destruct (last_dot (rev n)) as [[e s]|] eqn:D.
  - apply last_dot_some in D as (x & -> & HX & D). apply (f_equal (@rev N)) in D. rewrite rev_involutive, rev_app_distr in D. cbn [rev] in D. rewrite <- app_assoc in D. cbn [app] in D.
    assert (L : forall s' e', n = s' ++ 46 :: e' -> ~ In 46 e' -> s' = rev s /\ e' = rev x).
    { intros s' e' E' H'. assert (K : no_dot_last = no_dot_last) by reflexivity. clear K.
      pose proof (no_dot_last (rev e') (rev s') ltac:(now rewrite <- in_rev)) as L1. pose proof (no_dot_last x s HX) as L2.
      assert (R1 : rev n = rev e' ++ 46 :: rev s') by (rewrite E', rev_app_distr; cbn [rev]; now rewrite <- app_assoc).
      assert (R2 : rev n = x ++ 46 :: s) by (rewrite D, rev_app_distr; cbn [rev]; rewrite !rev_involutive, <- app_assoc; reflexivity).
      rewrite <- R1 in L1. rewrite <- R2, L1 in L2. injection L2 as A C. apply app_inj_tail in A as [A _]. split; [rewrite <- C|rewrite <- A]; now rewrite rev_involutive. }
    destruct (bytes_eqb_spec n (B "..")) as [K|K]; [exists n, []; apply ns_none; intros; contradiction|].
    destruct s as [|a s].
    + exists n, []. apply ns_none. intros s' e' E' HS' _. destruct (in_dec N.eq_dec 46 e') as [I1|I1]; [exact I1|]. destruct (L _ _ E' I1) as [-> _]. elim HS'. reflexivity.
    + exists (rev (a :: s)), (46 :: rev x). apply ns_ext; [exact D| |exact K|now rewrite <- in_rev]. cbn [rev]. intros J. apply app_eq_nil in J as [_ J]. discriminate.
  - apply last_dot_none in D. exists n, []. apply ns_none. intros s e -> _ _. elim D. rewrite <- in_rev. apply in_or_app. right. now left.
Qed.
Lemma split_iff n s e : name_split n s e <-> split_ext n = (s, e).
Proof. split; [apply split_one|]. intros H. destruct (split_some n) as (s' & e' & K). pose proof (split_one _ _ _ K) as E. rewrite H in E. injection E as -> ->. exact K. Qed.

(** ** Parts. *)
Lemma term_rec (P : term -> Prop) : (forall s, P (TText s)) -> (forall k o, P (TAacet k o)) -> P TEncodedBy -> (forall f, P (TYear f)) ->
  (forall k o, P (TFile k o)) -> (forall b h, P (TSize b h)) -> (forall b h, P (TMd5 b h)) -> (forall l, Forall P l -> P (TSub l)) -> forall t, P t.
Proof.
  intros H1 H2 H3 H4 H5 H6 H7 H8. fix IH 1. destruct t as [s|k o| |f|k o|b h|b h|l]; [apply H1|apply H2|apply H3|apply H4|apply H5|apply H6|apply H7|].
  apply H8. induction l as [|x l IL]; constructor; [apply IH|exact IL].
Qed.
Lemma eval_sub ct ic c l : eval_term ct ic c (TSub l) = match eval_terms ct ic c [] l with Throw TemplateError => Ok [] | r => r end.
Proof.
  assert (G : forall acc, (fix go (acc : bytes) (l : list term) : outcome bytes :=
               match l with [] => Ok acc | x :: r => let* s := eval_term ct ic c x in go (acc ++ s) r end) acc l = eval_terms ct ic c acc l).
  { induction l as [|x l IH]; intros acc; [reflexivity|]. cbn [eval_terms]. destruct (eval_term ct ic c x); cbn [bind]; auto. }
  cbn [eval_term]. now rewrite G.
Qed.
Definition right ct ic c (t : term) : Prop := (forall s, eval_term ct ic c t = Ok s <-> shows ct ic c t s) /\ (eval_term ct ic c t = Throw TemplateError <-> lacks ic c t).
Lemma terms_right ct ic c l : Forall (right ct ic c) l ->
  (forall s, eval_terms ct ic c [] l = Ok s <-> exists ss, Forall2 (shows ct ic c) l ss /\ s = concat ss) /\
  (eval_terms ct ic c [] l = Throw TemplateError <-> exists l1 x l2 ss, l = l1 ++ x :: l2 /\ Forall2 (shows ct ic c) l1 ss /\ lacks ic c x).
Proof.
  induction 1 as [|x l [R1 R2] HL [I1 I2]].
  - cbn [eval_terms]. split; [intros s; split|split].
    + intros H. injection H as <-. exists []. split; [constructor|reflexivity].
    + intros (ss & H & ->). inversion H. reflexivity.
    + discriminate.
    + intros (l1 & x & l2 & ss & H & _). destruct l1; discriminate.
  - cbn [eval_terms]. split; [intros s; split|split].
    + intros H. destruct (eval_term ct ic c x) as [a| | |] eqn:E; cbn [bind] in H; try discriminate. rewrite eval_terms_acc in H.
      destruct (eval_terms ct ic c [] l) as [b| | |] eqn:F; cbn [bind] in H; try discriminate. injection H as <-. destruct (proj1 (I1 b) eq_refl) as (ss & K & ->).
      exists (a :: ss). split; [constructor; [now apply R1|exact K]|reflexivity].
    + intros (ss & H & ->). inversion H as [|x' a l' ss' HX HS]; subst. apply R1 in HX. rewrite HX. cbn [bind]. rewrite eval_terms_acc.
      rewrite (proj2 (I1 (concat ss')) (ex_intro _ ss' (conj HS eq_refl))). reflexivity.
    + intros H. destruct (eval_term ct ic c x) as [a|e| |] eqn:E; cbn [bind] in H; try discriminate.
      * rewrite eval_terms_acc in H. destruct (eval_terms ct ic c [] l) as [b|e| |] eqn:F; cbn [bind] in H; try discriminate.
        destruct (proj1 I2 H) as (l1 & y & l2 & ss & -> & K & L). exists (x :: l1), y, l2, (a :: ss). split; [reflexivity|]. split; [constructor; [now apply R1|exact K]|exact L].
      * exists [], x, l, []. split; [reflexivity|]. split; [constructor|]. now apply R2.
    + intros (l1 & y & l2 & ss & E & K & L). destruct l1 as [|z l1].
      * cbn [app] in E. injection E as -> ->. apply R2 in L. rewrite L. reflexivity.
      * cbn [app] in E. injection E as -> ->. inversion K as [|x' a l' ss' HX HS]; subst. apply R1 in HX. rewrite HX. cbn [bind]. rewrite eval_terms_acc.
        assert (T : eval_terms ct ic c [] (l1 ++ y :: l2) = Throw TemplateError) by (apply I2; exists l1, y, l2, ss'; auto). rewrite T. reflexivity.
Qed.

Lemma tag_right ct ic c k o : regular ic c (TAacet k o) -> right ct ic c (TAacet k o).
Proof.
  intros H. inversion H as [|k' o' HG HB| | | | | |]; subst. unfold right. rewrite eval_aacet_eq.
  assert (O : nonempty (v2_option c k) = match v2_value c k with [] => None | _ => Some (v2_value c k) end) by (rewrite v2_option_value; destruct (v2_value c k); reflexivity).
  destruct (source_l ic (v1_value c k) (v2_option c k) (v2_value c k) (a_sp o) (a_v1 o) O HG HB) as [S1 S2]. split.
  - intros s. split.
    + intros E. destruct (source_text ic (v1_value c k) (v2_option c k) (a_sp o) (a_v1 o)) as [t| | |] eqn:F; cbn [bind] in E; try discriminate.
      destruct (proj1 (S1 t) eq_refl) as [C N0]. apply (xform_iff ct ic o t s N0) in E as (u & v & w & E1 & E2 & E3 & E4). now apply (sh_tag ct ic c k o t u v w s).
    + intros E. inversion E as [|k' o' t u v w s' C N0 E1 E2 E3 E4| | | | | | | |]; subst. rewrite (proj2 (S1 t) (conj C N0)). cbn [bind]. apply xform_iff; [exact N0|]. eauto 8.
  - split.
    + intros E. constructor. apply S2. destruct (source_text ic (v1_value c k) (v2_option c k) (a_sp o) (a_v1 o)) as [t| | |]; cbn [bind] in E; auto. elim (xform_error _ _ _ _ E).
    + intros E. inversion E as [k' o' C| |]; subst. apply S2 in C. rewrite C. reflexivity.
Qed.
Lemma encoder_right ct ic c : regular ic c TEncodedBy -> right ct ic c TEncodedBy.
Proof.
  intros H. inversion H as [| |HE| | | | |]; subst. unfold right. cbn [eval_term]. unfold eval_encoded_by, v2_field.
  destruct (c_v2 c) as [t|] eqn:EC; [destruct (t_encoded t) as [b|] eqn:ET|].
  2,3: assert (EV : v2_encoder c = []) by (unfold v2_encoder; rewrite EC; try rewrite ET; reflexivity); split;
    [intros s; split; [discriminate|intros K; inversion K as [| |u s' N0 E1 E2| | | | | | |]; subst; contradiction]|split; [intros _; now constructor|reflexivity]].
  assert (EV : v2_encoder c = b) by (unfold v2_encoder; rewrite EC, ET; reflexivity). assert (N0 : b <> []) by (intros ->; now apply HE).
  pose proof (article_nonempty ct MakeSuffix b N0) as NU. split.
  - intros s. split.
    + intros E. apply cased_iff in E; [|auto]. apply (sh_encoder ct ic c (do_the_xform ct b MakeSuffix)); rewrite ?EV; [exact N0|now apply article_iff|exact E].
    + intros K. inversion K as [| |u s' N1 E1 E2| | | | | | |]; subst. apply article_iff in E1. subst u. apply cased_iff; auto.
  - split; [intros E; elim (cap_error _ _ _ E)|]. intros K. inversion K as [|E1|]; subst. congruence.
Qed.
Lemma year_right ct ic c f : regular ic c (TYear f) -> right ct ic c (TYear f).
Proof.
  intros H. inversion H as [| | |f' HG HY| | | |]; subst. unfold right. cbn [eval_term]. unfold eval_year.
  assert (O1 : v1_field c o_year = v1_year c) by reflexivity. rewrite O1. clear O1.
  assert (O2 : nonempty (v2_field c t_year) = match v2_year c with [] => None | _ => Some (v2_year c) end).
  { unfold v2_field, v2_year. destruct (c_v2 c) as [t|]; [|reflexivity]. destruct (t_year t) as [[|a r]|]; reflexivity. }
  destruct (source_l ic (v1_year c) _ _ PreferV2 V1Auto O2) as [S1 S2].
  { intros [K|[K|[_ K]]]; try discriminate. auto. } { discriminate. }
  assert (T4 : forall y : bytes, len y = 4 -> takeN 4 y = y) by (intros y L; apply takeN_all; lia). split.
  - intros s. split.
    + intros E. destruct (source_text ic (v1_year c) (v2_field c t_year) PreferV2 V1Auto) as [y| | |] eqn:F; cbn [bind] in E; try discriminate.
      destruct (proj1 (S1 y) eq_refl) as [C N0]. destruct (HY _ C) as [K|L]; [contradiction|]. destruct f.
      * destruct (len y <? 2); [discriminate|]. injection E as <-. rewrite <- (T4 y L) at 1. now constructor.
      * injection E as <-. rewrite <- (T4 y L). now constructor.
    + intros E. inversion E as [| | |y C N0|y C N0| | | | |]; subst; (destruct (HY _ C) as [K|L]; [contradiction|]); rewrite (proj2 (S1 y) (conj C N0)), (T4 y L); cbn [bind]; [reflexivity|].
      destruct (N.ltb_spec (len y) 2); [lia|reflexivity].
  - split.
    + intros E. constructor. apply S2. destruct (source_text ic (v1_year c) (v2_field c t_year) PreferV2 V1Auto) as [y| | |]; cbn [bind] in E; auto.
      destruct f; [destruct (len y <? 2)|]; discriminate.
    + intros E. inversion E as [| |f' C]; subst. apply S2 in C. rewrite C. reflexivity.
Qed.
Lemma file_right ct ic c k o : regular ic c (TFile k o) -> right ct ic c (TFile k o).
Proof.
  intros H. unfold right. cbn [eval_term]. unfold eval_file, stem, extension. destruct (split_ext (filename (c_name c))) as [st ex] eqn:ES. cbn [fst snd].
  pose proof (proj2 (split_iff _ _ _) ES) as NS. assert (LP : last_part (c_name c) (filename (c_name c))) by now apply last_part_iff.
  set (p := match k with Basename => st | Extension => ex end).
  assert (HC : f_cap o = Capitalize -> do_the_xform ct p (f_the o) <> []).
  { intros EC. apply article_nonempty. unfold p. inversion H as [| | | |o' HN HD|o' HX| |]; subst.
    - intros ->. pose proof NS as NS'. inversion NS' as [s e E1 E2 E3 E4 | E1]; subst; [congruence|].
      destruct LP as [_ (d & E & D)]. assert (F : filename (c_name c) = []) by congruence. rewrite F in *. rewrite app_nil_r in E. destruct D as [->|(d' & ->)]; [contradiction|]. apply HD. eauto.
    - intros ->. exact (HX _ _ EC LP NS). }
  split.
  - intros s. split.
    + intros E. destruct (do_cap_xform ct (do_the_xform ct p (f_the o)) (f_cap o)) as [v| | |] eqn:EC; cbn [bind] in E; try discriminate. injection E as <-.
      apply cased_iff in EC; [|exact HC]. unfold p in EC. destruct k; [eapply sh_base|eapply sh_ext]; try exact LP; try exact NS; try (apply article_iff; reflexivity); try exact EC; now apply spaced_iff.
    + intros K. inversion K as [| | | | |o' n t e u v s' L1 N1 E1 E2 E3|o' n t e u v s' L1 N1 E1 E2 E3| | |]; subst; apply last_part_iff in L1; subst n; apply split_iff in N1; rewrite ES in N1; injection N1 as -> ->;
        apply article_iff in E1; subst u; apply cased_iff in E2; try exact HC; unfold p; rewrite E2; cbn [bind]; apply spaced_iff in E3; now subst s.
  - split; [|intros K; inversion K]. pose proof (cap_error ct (do_the_xform ct p (f_the o)) (f_cap o)) as CE. destruct (do_cap_xform _ _ _); cbn [bind]; congruence.
Qed.

Lemma all_right ct ic c t : regular ic c t -> right ct ic c t.
Proof.
  induction t as [s|k o| |f|k o|b h|b h|l IH] using term_rec; intros H.
  - split; [intros s'; cbn [eval_term]; split; [intros E; injection E as <-; constructor|intros K; inversion K; reflexivity]|].
    split; [discriminate|intros K; inversion K].
  - now apply tag_right.
  - now apply encoder_right.
  - now apply year_right.
  - now apply file_right.
  - inversion H; subst. unfold right. cbn [eval_term eval_size]. split; [intros s; split|split; [discriminate|intros K; inversion K]].
    + intros E. injection E as <-. constructor. now apply numeral_iff.
    + intros K. inversion K as [| | | | | | |h' s' E| |]; subst. apply numeral_iff in E. now subst s.
  - inversion H.
  - inversion H as [| | | | | | |l' HL]; subst. assert (R : Forall (right ct ic c) l).
    { clear H. induction HL as [|x l HX HL IL]; [constructor|]. inversion IH; subst. constructor; auto. }
    destruct (terms_right ct ic c l R) as [T1 T2]. unfold right. rewrite eval_sub. split; [intros s; split|split].
    + intros E. destruct (eval_terms ct ic c [] l) as [a|e| |] eqn:F; try discriminate.
      * injection E as <-. destruct (proj1 (T1 a) eq_refl) as (ss & K & ->). now constructor.
      * destruct e; try discriminate. injection E as <-. destruct (proj1 T2 eq_refl) as (l1 & x & l2 & ss & -> & K & L). now apply (sh_optional_not ct ic c l1 x l2 ss).
    + intros K. inversion K as [| | | | | | | |l' ss HS|l1 x l2 ss HS HX]; subst.
      * rewrite (proj2 (T1 (concat ss)) (ex_intro _ ss (conj HS eq_refl))). reflexivity.
      * assert (T : eval_terms ct ic c [] (l1 ++ x :: l2) = Throw TemplateError) by (apply T2; exists l1, x, l2, ss; auto). now rewrite T.
    + destruct (eval_terms ct ic c [] l) as [|e| |]; try discriminate. destruct e; discriminate.
    + intros K. inversion K.
Qed.

Lemma template_l ct ic c l : Forall (regular ic c) l ->
  (forall s, process ct ic c l = Ok s <-> exists ss, Forall2 (shows ct ic c) l ss /\ s = concat ss) /\
  (process ct ic c l = Throw TemplateError <-> exists l1 x l2 ss, l = l1 ++ x :: l2 /\ Forall2 (shows ct ic c) l1 ss /\ lacks ic c x).
Proof. intros H. apply terms_right. revert H. apply Forall_impl. intros t. apply all_right. Qed.

(** ** What goes wrong. *)
Lemma sub_one ct ic c t : process ct ic c [TSub [t]] = match process ct ic c [t] with Throw TemplateError => Ok [] | r => r end.
Proof. rewrite !process_one, eval_sub. fold (process ct ic c [t]). rewrite process_one. reflexivity. Qed.
Lemma le_l ct ic c k o r s : a_v1 o = V1Auto -> needs_v1 (a_sp o) (v2_value c k) -> v1_value c k = 0xff :: 0xfe :: r ->
  process ct ic c [TAacet k o] = Ok s -> exists t, to_string ic (v1_value c k) E_UTF_16BE E_UTF_8 NoFail = Ok t /\ xform_and_encode ct ic o t = Ok s.
Proof.
  intros HA HN HV H. rewrite process_one, eval_aacet_eq, HA in H. unfold source_text in H. rewrite v2_option_value in H.
  assert (T : v1_text_to_utf8 ic (v1_value c k) V1Auto = to_string ic (v1_value c k) E_UTF_16BE E_UTF_8 NoFail) by (rewrite HV; reflexivity). rewrite T in H.
  assert (E : (let* t := (let* t := to_string ic (v1_value c k) E_UTF_16BE E_UTF_8 NoFail in match t with [] => Throw TemplateError | _ => Ok t end) in xform_and_encode ct ic o t) = Ok s).
  { rewrite HV in H |- *. destruct HN as [K|[K|[K J]]]; rewrite K in H; try rewrite J in H; exact H. }
  destruct (to_string ic (v1_value c k) E_UTF_16BE E_UTF_8 NoFail) as [t| | |]; cbn [bind] in E; try discriminate. exists t. split; [reflexivity|]. destruct t; [discriminate|exact E].
Qed.
Lemma year_l ct ic c : v2_year c <> [] ->
  process ct ic c [TYear FourDigits] = Ok (v2_year c) /\ (2 <= len (v2_year c) -> process ct ic c [TYear TwoDigits] = Ok (dropN 2 (v2_year c))).
Proof.
  intros H. rewrite !process_one. cbn [eval_term]. unfold eval_year.
  assert (E : source_text ic (v1_field c o_year) (v2_field c t_year) PreferV2 V1Auto = Ok (v2_year c)).
  { unfold source_text, v2_field. unfold v2_year in *. destruct (c_v2 c) as [t|]; [|congruence]. destruct (t_year t) as [[|a r]|]; [congruence|reflexivity|congruence]. }
  rewrite E. cbn [bind]. split; [reflexivity|]. intros L. destruct (N.ltb_spec (len (v2_year c)) 2); [lia|reflexivity].
Qed.
Lemma year1_l ct ic c f : v2_year c = [] -> v1_year c <> [] -> no_bom (v1_year c) ->
  process ct ic c [TYear f] = Throw InvalidArgument /\ process ct ic c [TSub [TYear f]] = Throw InvalidArgument.
Proof.
  intros H2 H1 HB. rewrite sub_one. assert (E : process ct ic c [TYear f] = Throw InvalidArgument); [|now rewrite E].
  rewrite process_one. cbn [eval_term]. unfold eval_year. change (v1_field c o_year) with (v1_year c). unfold source_text. rewrite (auto_throws ic _ H1 HB).
  assert (E : nonempty (v2_field c t_year) = None). { unfold v2_field. unfold v2_year in H2. destruct (c_v2 c) as [t|]; [|reflexivity]. destruct (t_year t) as [[|a r]|]; [reflexivity|discriminate|reflexivity]. }
  rewrite E. destruct (v1_year c); [congruence|reflexivity].
Qed.
Lemma ext_l ct ic c o n : f_cap o = Capitalize -> last_part (c_name c) n -> name_split n n [] ->
  process ct ic c [TFile Extension o] = Throw OutOfRange /\ process ct ic c [TSub [TFile Extension o]] = Throw OutOfRange.
Proof.
  intros HC HL HS. rewrite sub_one. assert (E : process ct ic c [TFile Extension o] = Throw OutOfRange); [|now rewrite E].
  rewrite process_one. cbn [eval_term]. unfold eval_file, extension. apply last_part_iff in HL. rewrite <- HL. apply split_iff in HS. rewrite HS. cbn [snd]. rewrite HC. destruct (f_the o); reflexivity.
Qed.
Lemma encoder_l ct ic c t : c_v2 c = Some t -> t_encoded t = Some [] ->
  process ct ic c [TEncodedBy] = Throw OutOfRange /\ process ct ic c [TSub [TEncodedBy]] = Throw OutOfRange.
Proof.
  intros H1 H2. rewrite sub_one. assert (E : process ct ic c [TEncodedBy] = Throw OutOfRange); [|now rewrite E].
  rewrite process_one. cbn [eval_term]. unfold eval_encoded_by, v2_field. rewrite H1, H2. reflexivity.
Qed.
Lemma md5_l ct ic c b h : process ct ic c [TMd5 (Some b) (Some h)] = Ok (c_md5 c).
Proof. rewrite process_one. destruct b; reflexivity. Qed.
