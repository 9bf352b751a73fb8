(** * Lemmas for C82: the objects of frames. *)
From Verif Require Import Base M_Ints M_Unsync M_Stream M_Id3v1 M_Charset M_Payload M_Cloud M_Frame M_Tag22 M_Tag23 M_Tag24 M_Lookup M_Read M_Fs M_Popm M_Process M_Cmds M_Scheme M_Scheme2
  S_Ints S_Charset S_Payload S_Cloud S_Lookup S_Cmds S_Scheme2 S_Scheme4 L_Charset L_Payload L_Cmds L_Scheme2 L_Scheme3 L_Scheme5 L_Scheme7.
#[local] Open Scope N_scope.

(** ** Texts *)
Lemma c_str_first m : first_text m (c_str m).
Proof.
  induction m as [|c r [H1 H2]]; [split; [intros []|left; reflexivity]|]. cbn [c_str]. destruct (N.eqb_spec c 0) as [->|Hc].
  - split; [intros []|right; exists r; reflexivity].
  - split; [intros [E|E]; [congruence|exact (H1 E)]|]. destruct H2 as [E|(q & E)]; [left; now rewrite <- E|right; exists q; now rewrite E at 1].
Qed.
Lemma first_text_iff m s : first_text m s <-> s = c_str m.
Proof.
  split; [|intros ->; apply c_str_first]. intros [H1 H2]. destruct H2 as [->|(r & ->)].
  - symmetry. now apply c_str_no_nul.
  - induction s as [|c s IH]; [reflexivity|]. cbn [app c_str]. destruct (N.eqb_spec c 0) as [->|_]; [elim H1; now left|].
    f_equal. apply IH. intros K. apply H1. now right.
Qed.
Lemma rtrim_split l : exists q, l = rtrim l ++ q /\ Forall (fun c => c = 0 \/ c = 32) q /\ no_trailing (rtrim l).
Proof.
  induction l as [|c r (q & E & F & HN)]; [exists []; split; [reflexivity|]; split; [constructor|]; intros s0 x H; destruct s0; discriminate|].
  cbn [rtrim]. destruct (rtrim r) as [|d t] eqn:R.
  - cbn [app] in E. subst q. destruct ((c =? 0) || (c =? 32)) eqn:C.
    + exists (c :: r). split; [reflexivity|]. split; [|intros s' x H; destruct s'; discriminate]. constructor; [|exact F].
      apply orb_true_iff in C as [C|C]; apply N.eqb_eq in C; auto.
    + exists r. split; [reflexivity|]. split; [exact F|]. intros s' x H. apply orb_false_iff in C as [C1 C2]. apply N.eqb_neq in C1, C2.
      destruct s' as [|a [|b s']]; try discriminate. injection H as <-. auto.
  - exists q. split; [now rewrite E at 1|]. split; [exact F|]. intros s' x H. destruct s' as [|a s']; [discriminate|]. injection H as _ H. exact (HN s' x H).
Qed.
Lemma rtrim_tail m q : Forall (fun c => c = 0 \/ c = 32) q -> no_trailing m -> rtrim (m ++ q) = m.
Proof. intros F HN. rewrite rtrim_app by (now apply rtrim_blank). now apply rtrim_id. Qed.
Lemma drop_bom_utf8 l : Forall (fun c => c < 248) l -> exists p, l = p ++ drop_bom l /\ (p = [239; 187; 191] \/ p = [] /\ forall r, l <> 239 :: 187 :: 191 :: r).
Proof.
  intros H. unfold drop_bom.
  assert (G : l = match l with 239 :: 187 :: 191 :: r => [239; 187; 191] ++ r | _ => l end).
  { repeat first [reflexivity | match goal with |- _ = match ?x with _ => _ end => destruct x end]. }
  assert (E : (exists r, l = 239 :: 187 :: 191 :: r) \/ (forall r, l <> 239 :: 187 :: 191 :: r)).
  { destruct l as [|a [|b [|c r]]]; try (right; congruence). destruct (N.eq_dec a 239), (N.eq_dec b 187), (N.eq_dec c 191); subst; try (right; congruence). left. now exists r. }
  destruct E as [(r & ->)|E].
  - exists [239; 187; 191]. split; [reflexivity|now left].
  - exists []. split; [|right; auto]. cbn [app]. clear G.
    assert (H2 : ~ In 254 l /\ ~ In 255 l) by (rewrite Forall_forall in H; split; intros K; apply H in K; lia).
    destruct H2 as [H2 H3]. clear H.
    repeat first [reflexivity | match goal with |- ?l = match ?x with _ => _ end => is_var x; destruct x end];
      exfalso; first [eapply E; reflexivity | apply H2; cbn; tauto | apply H3; cbn; tauto].
Qed.
Lemma trimmed_iff out m : Forall (fun c => c < 248) out -> (trimmed out m <-> m = rtrim (drop_bom out)).
Proof.
  intros H. destruct (drop_bom_utf8 out H) as (p & E & P). split.
  - intros (p' & q & E' & P' & F & HN). assert (X : drop_bom out = m ++ q); [|rewrite X; symmetry; now apply rtrim_tail].
    destruct P as [->|[-> P]], P' as [->|[-> P']].
    + rewrite E in E' at 1. cbn [app] in E'. now injection E'.
    + cbn [app] in E. now elim (P' _ E).
    + cbn [app] in E'. now elim (P _ E').
    + cbn [app] in E, E'. congruence.
  - intros ->. destruct (rtrim_split (drop_bom out)) as (q & Eq & F & HN). exists p, q. rewrite <- Eq. auto.
Qed.

(** The encodings. *)
Lemma source_standard v n b : b <> [] -> ~ unmarked_be v n b -> text_source v (mkText n b) = match stored_as v n b with Some e => Ok e | None => Throw RangeError end.
Proof.
  intros Hb HU. unfold text_source, stored_as. cbn [tx_unicode tx_text].
  destruct v.
  - destruct n as [|[p|p|]]; reflexivity.
  - destruct n as [|[p|p|]]; reflexivity.
  - destruct n as [|[[p|p|]|[p|p|]|]]; try reflexivity. cbn [N.eqb Pos.eqb orb].
    destruct b as [|x [|y r]]; [congruence|elim HU; repeat split; congruence|].
    destruct (N.eq_dec x 254) as [->|Hx]; [|elim HU; repeat split; congruence]. destruct (N.eq_dec y 255) as [->|Hy]; [reflexivity|elim HU; repeat split; congruence].
Qed.
Lemma frame_text_cases G v n b : gives_utf8 G -> ~ unmarked_be v n b ->
  (exists m, frame_text G v (Some n) b = GOk m /\ from_utf8 G m = GOk (SStr (c_str m)) /\ g_utf8 G (c_str m) = true /\ (forall s, text_shown G v n b s <-> s = c_str m) /\ ~ text_lost G v n b) \/
  (exists e, frame_text G v (Some n) b = GThrow e /\ text_lost G v n b /\ forall s, ~ text_shown G v n b s).
Proof.
  intros [HG HA] HU. destruct b as [|x r].
  - left. exists []. assert (U : g_utf8 G [] = true) by (apply HA; constructor). unfold from_utf8. cbn [c_str]. rewrite U. do 3 (split; [reflexivity|]). split; [|intros [K _]; congruence].
    intros s. split; [intros [[_ ->]|[K _]]; [reflexivity|congruence]|intros ->; left; auto].
  - cbn [frame_text]. unfold text_as_str. cbn [tx_text]. rewrite source_standard by (congruence || exact HU). set (b := x :: r) in *.
    assert (Hb : b <> []) by (unfold b; congruence).
    destruct (stored_as v n b) as [e|] eqn:SA.
    + cbn [bind]. unfold to_string. cbn [char_unit negb]. destruct b eqn:Eb; [congruence|]. rewrite <- Eb in *. destruct (g_ic G e E_UTF_8 NoFail b) as [out|] eqn:IC.
      * left. exists (rtrim (drop_bom out)). cbn [glift]. destruct (HG _ _ _ _ IC) as [F U].
        assert (U' : g_utf8 G (c_str (rtrim (drop_bom out))) = true) by (apply (U (rtrim (drop_bom out))); [now apply trimmed_iff|apply c_str_first]).
        split; [reflexivity|]. split; [unfold from_utf8; now rewrite U'|]. split; [exact U'|]. split.
        -- intros s. split.
           ++ intros [[K _]|[_ (e' & o & m & E1 & E2 & E3 & E4)]]; [congruence|]. rewrite SA in E1. injection E1 as <-. rewrite IC in E2. injection E2 as <-.
              apply trimmed_iff in E3; [|exact F]. apply first_text_iff in E4. now subst.
           ++ intros ->. right. split; [exact Hb|]. exists e, out, (rtrim (drop_bom out)). repeat split; auto; [now apply trimmed_iff| |]; apply c_str_first.
        -- intros [_ K]. specialize (K e SA). congruence.
      * right. eexists. split; [reflexivity|]. split; [split; [exact Hb|]; intros e' E; congruence|].
        intros s [[K _]|[_ (e' & o & m & E1 & E2 & _)]]; congruence.
    + right. exists RangeError. split; [reflexivity|]. split; [split; [exact Hb|]; intros e' E; congruence|].
      intros s [[K _]|[_ (e' & o & m & E1 & E2 & _)]]; congruence.
Qed.
Lemma email_cases G p : gives_utf8 G ->
  (exists m, email_text (g_ic G) p = Ok m /\ from_utf8 G m = GOk (SStr (c_str m)) /\ g_utf8 G (c_str m) = true /\ (forall s, email_shown G (po_email p) s <-> s = c_str m) /\ ~ email_lost G (po_email p)) \/
  (exists e, email_text (g_ic G) p = Throw e /\ email_lost G (po_email p) /\ forall s, ~ email_shown G (po_email p) s).
Proof.
  intros [HG HA]. unfold email_text. destruct (po_email p) as [|x r].
  - left. exists []. assert (U : g_utf8 G [] = true) by (apply HA; constructor). unfold from_utf8. cbn [c_str]. rewrite U. do 3 (split; [reflexivity|]). split; [|intros [K _]; congruence].
    intros s. split; [intros [[_ ->]|[K _]]; [reflexivity|congruence]|intros ->; left; auto].
  - set (b := x :: r) in *. assert (Hb : b <> []) by (unfold b; congruence). unfold to_string. cbn [char_unit negb]. destruct b eqn:Eb; [congruence|]. rewrite <- Eb in *.
    destruct (g_ic G E_ASCII E_UTF_8 NoFail b) as [out|] eqn:IC.
    + left. exists (rtrim (drop_bom out)). destruct (HG _ _ _ _ IC) as [F U].
      assert (U' : g_utf8 G (c_str (rtrim (drop_bom out))) = true) by (apply (U (rtrim (drop_bom out))); [now apply trimmed_iff|apply c_str_first]).
      split; [reflexivity|]. split; [unfold from_utf8; now rewrite U'|]. split; [exact U'|]. split.
      * intros s. split.
        -- intros [[K _]|[_ (o & m & E2 & E3 & E4)]]; [congruence|]. rewrite IC in E2. injection E2 as <-.
           apply trimmed_iff in E3; [|exact F]. apply first_text_iff in E4. now subst.
        -- intros ->. right. split; [exact Hb|]. exists out, (rtrim (drop_bom out)). repeat split; auto; [now apply trimmed_iff| |]; apply c_str_first.
      * intros [_ K]. congruence.
    + right. eexists. split; [reflexivity|]. split; [split; assumption|]. intros s [[K _]|[_ (o & m & E2 & _)]]; congruence.
Qed.
Lemma counter_cases c : is_bytes c -> c <> [] ->
  (exists n, counter_value c = Ok n /\ (forall n', counts c n' <-> n' = n) /\ ~ uncountable c) \/
  (exists e, counter_value c = Throw e /\ uncountable c /\ forall n, ~ counts c n).
Proof.
  intros HB HN. unfold counts, uncountable. destruct (le_lt_dec (length c) 4) as [L|L].
  - left. assert (L1 : (1 <= length c <= 4)%nat) by (destruct c; [congruence|cbn in *; lia]).
    exists (positional 256 c). split; [now apply counter_value_positional|]. unfold len. split; [|lia]. intros n'. split; [intros [_ ->]; reflexivity|]. intros ->. split; [lia|reflexivity].
  - right. exists DomainError. split; [now apply L_Payload.counter_too_long|]. unfold len. split; [lia|]. intros n [K _]. lia.
Qed.

(** ** The table *)
Definition fits_kind (k : serde) (sym : bytes) : bool :=
  match k with
  | FText => negb (existsb (bytes_eqb sym) special)
  | FComment => bytes_eqb sym (B "comment-frame") | FUdt => bytes_eqb sym (B "udt-frame") | FCount => bytes_eqb sym (B "play-count-frame")
  | FPopm => bytes_eqb sym (B "popm-frame") | FCloud => bytes_eqb sym (B "tag-cloud-frame")
  end.
Definition serde_kind (k : serde) : kind :=
  match k with FText => KText | FComment => KComm | FUdt => KTxxx | FCount => KCount | FPopm => KPopm | FCloud => KCloud end.
Definition de_row_ok (v : version) (r : bytes * serde) : bool :=
  existsb (fun d => match v with V22 => opt_eqb (snd (fst d)) (fst r) | _ => bytes_eqb (snd d) (fst r) end && fits_kind (snd r) (fst (fst d))) documented &&
  match kind_of v (fst r), serde_kind (snd r) with KText, KText | KComm, KComm | KTxxx, KTxxx | KCount, KCount | KPopm, KPopm | KCloud, KCloud => true | _, _ => false end.
Lemma de_rows_ok v : forallb (de_row_ok v) (de_table v) = true.
Proof. destruct v; vm_compute; reflexivity. Qed.
Lemma assoc_b_in {A} k (t : list (bytes * A)) a : assoc_b k t = Some a -> In (k, a) t.
Proof.
  induction t as [|[k' a'] t IH]; [discriminate|]. cbn [assoc_b]. destruct (bytes_eqb k k') eqn:E; [|right; auto].
  intros H. injection H as <-. apply bytes_eqb_eq in E. left. now subst.
Qed.
Lemma in_existsb sym l : In sym l -> existsb (bytes_eqb sym) l = true.
Proof. intros H. apply existsb_exists. exists sym. split; [exact H|now apply bytes_eqb_eq]. Qed.
Lemma de_row v id k : assoc_b id (de_table v) = Some k -> exists sym, documented_id v sym id /\ fits_kind k sym = true /\ kind_of v id = serde_kind k.
Proof.
  intros H. apply assoc_b_in in H. pose proof (de_rows_ok v) as R. rewrite forallb_forall in R. specialize (R _ H). unfold de_row_ok in R. cbn [fst snd] in R.
  apply andb_true_iff in R as [R K]. apply existsb_exists in R as ([[sym i3] i4] & HI & R). cbn [fst snd] in R. apply andb_true_iff in R as [R1 R2].
  exists sym. split; [|split; [exact R2|destruct (kind_of v id), k; cbn in K; try discriminate; reflexivity]].
  exists i3, i4. split; [exact HI|]. destruct v; [now apply opt_eqb_true|now apply bytes_eqb_eq|now apply bytes_eqb_eq].
Qed.
Definition has_de (v : version) (d : bytes * option bytes * bytes) : bool :=
  match v with
  | V22 => match snd (fst d) with Some i => match assoc_b i (de_table v) with Some k => fits_kind k (fst (fst d)) | None => false end | None => true end
  | _ => match assoc_b (snd d) (de_table v) with Some k => fits_kind k (fst (fst d)) | None => false end
  end.
Lemma has_de_ok v : forallb (has_de v) documented = true.
Proof. destruct v; vm_compute; reflexivity. Qed.
Lemma de_doc v sym id : documented_id v sym id -> exists k, assoc_b id (de_table v) = Some k /\ fits_kind k sym = true.
Proof.
  intros (i3 & i4 & H & E). pose proof (has_de_ok v) as R. rewrite forallb_forall in R. specialize (R _ H). unfold has_de in R. cbn [fst snd] in R.
  destruct v; subst; (destruct (assoc_b id _) as [k|]; [exists k; auto|discriminate]).
Qed.
Lemma none_undocumented v f : assoc_b (f_id f) (de_table v) = None <-> no_symbol v f.
Proof.
  split.
  - intros H sym HD. destruct (de_doc _ _ _ HD) as (k & E & _). congruence.
  - intros H. destruct (assoc_b (f_id f) (de_table v)) as [k|] eqn:E; [|reflexivity]. destruct (de_row _ _ _ E) as (sym & HD & _). elim (H _ HD).
Qed.
Lemma fits_special k sym : fits_kind k sym = true -> k <> FText -> sym = match k with FComment => B "comment-frame" | FUdt => B "udt-frame" | FCount => B "play-count-frame" | FPopm => B "popm-frame" | _ => B "tag-cloud-frame" end.
Proof. destruct k; cbn [fits_kind]; intros H K; try congruence; now apply bytes_eqb_eq. Qed.
Lemma fits_text k sym : fits_kind k sym = true -> ~ In sym special -> k = FText.
Proof. intros H K. destruct k; try reflexivity; exfalso; apply K; apply fits_special in H; try congruence; subst; cbn; tauto. Qed.
Lemma fits_not_text sym : fits_kind FText sym = true -> ~ In sym special.
Proof. cbn [fits_kind]. intros H K. apply in_existsb in K. rewrite K in H. discriminate. Qed.
Definition k_name (k : serde) : bytes := match k with FText => [] | FComment => B "comment-frame" | FUdt => B "udt-frame" | FCount => B "play-count-frame" | FPopm => B "popm-frame" | FCloud => B "tag-cloud-frame" end.
Lemma name_kind v k id : k <> FText -> documented_id v (k_name k) id -> assoc_b id (de_table v) = Some k.
Proof.
  intros K HD. destruct (de_doc _ _ _ HD) as (k' & E & F). rewrite E. f_equal. destruct k; try congruence; destruct k'; try reflexivity; cbn in F; try discriminate F.
Qed.

(** ** Clouds *)
Lemma value_shown_iff G s x : from_stringn G s = GOk x <-> value_shown G s x.
Proof.
  unfold from_stringn, value_shown. destruct (g_utf8 G s).
  - split; [intros H; injection H as <-; auto|intros [[_ ->]|[K _]]; [reflexivity|discriminate]].
  - destruct (g_escape G s) as [r|].
    + split; [intros H; injection H as <-; right; eauto|intros [[K _]|[_ (r' & E & ->)]]; [discriminate|congruence]].
    + split; [discriminate|intros [[K _]|[_ (r' & E & ->)]]; congruence].
Qed.
Lemma gmap_iff {A B} (g : A -> gres B) l : forall r, gmap g l = GOk r <-> Forall2 (fun a b => g a = GOk b) l r.
Proof.
  induction l as [|a l IH]; intros r; cbn [gmap].
  - split; [intros H; injection H as <-; constructor|intros H; inversion H; reflexivity].
  - split.
    + intros H. destruct (g a) eqn:E; try discriminate H. cbn [gbind] in H. destruct (gmap g l) as [q|? |? |? |] eqn:E2; try discriminate H. cbn [gbind] in H. injection H as <-.
      constructor; [exact E|now apply IH].
    + intros H. inversion H; subst. rewrite H2. cbn [gbind]. apply IH in H4. rewrite H4. reflexivity.
Qed.
Lemma f2_iff {A B} (P Q : A -> B -> Prop) l : (forall a b, P a b <-> Q a b) -> forall r, Forall2 P l r <-> Forall2 Q l r.
Proof. intros H r. split; induction 1; constructor; auto; now apply H. Qed.
Lemma said_iff G m x : from_utf8 G m = GOk x <-> exists s, first_text m s /\ said G s x.
Proof.
  unfold from_utf8, said. split.
  - intros H. exists (c_str m). split; [apply c_str_first|]. destruct (g_utf8 G (c_str m)); [|discriminate]. injection H as <-. auto.
  - intros (s & H & E & ->). apply first_text_iff in H. subst. now rewrite E.
Qed.
Lemma entries_iff G m : forall lst x, de_entries G m lst = GOk x <-> exists es, Forall2 (entry_shown G) m es /\ x = fold_left (fun l e => SPair e l) es lst.
Proof.
  induction m as [|[k vs] m IH]; intros lst x; cbn [de_entries].
  - split; [intros H; injection H as <-; exists []; split; [constructor|reflexivity]|]. intros (es & H & ->). inversion H. reflexivity.
  - split.
    + intros H. destruct (gmap (from_stringn G) vs) as [vals|? |? |? |] eqn:E1; try discriminate H. cbn [gbind] in H. destruct (from_utf8 G k) as [key|? |? |? |] eqn:E2; try discriminate H. cbn [gbind] in H.
      apply IH in H as (es & F & ->). apply said_iff in E2 as (s & S1 & S2). exists (SPair key (slist vals) :: es). split; [|reflexivity]. constructor; [|exact F].
      exists key, s, vals. do 3 (split; [first [reflexivity|assumption]|]). apply gmap_iff in E1. exact (proj1 (f2_iff _ _ vs (value_shown_iff G) vals) E1).
    + intros (es & F & ->). inversion F as [|? e ? es' H1 H2]; subst. destruct H1 as (key & s & vals & -> & S1 & S2 & S3).
      assert (E1 : gmap (from_stringn G) vs = GOk vals) by (apply gmap_iff; exact (proj2 (f2_iff _ _ vs (value_shown_iff G) vals) S3)).
      assert (E2 : from_utf8 G k = GOk key) by (apply said_iff; eauto).
      rewrite E1. cbn [gbind]. rewrite E2. cbn [gbind fold_left]. apply IH. eauto.
Qed.
Lemma fold_pairs es : forall tl, fold_left (fun l e => SPair e l) es tl = fold_right SPair tl (rev es).
Proof. induction es as [|e es IH]; intros tl; [reflexivity|]. cbn [fold_left rev]. rewrite IH, fold_right_app. reflexivity. Qed.
Lemma slist_fold l : slist l = fold_right SPair SNull l.
Proof. induction l as [|x l IH]; [reflexivity|]. cbn [slist fold_right]. now rewrite IH. Qed.

(** ** The kinds *)
Lemma de_lang_ascii l : de_lang l = map (fun c => if c <? 128 then c else 0) l.
Proof. unfold de_lang. apply List.map_ext. intros c. rewrite N.ltb_antisym. now destruct (128 <=? c). Qed.
Lemma lang_utf8 G l : gives_utf8 G -> exists s, from_utf8 G (de_lang l) = GOk (SStr s) /\ g_utf8 G s = true /\ first_text (map (fun c => if c <? 128 then c else 0) l) s /\
  forall s', first_text (map (fun c => if c <? 128 then c else 0) l) s' -> s' = s.
Proof.
  intros [_ HA]. rewrite de_lang_ascii. set (m := map _ l). exists (c_str m).
  assert (U : g_utf8 G (c_str m) = true).
  { apply HA. assert (F : Forall (fun c => c < 128) m) by (unfold m; apply Forall_forall; intros x H; apply in_map_iff in H as (c & <- & _); destruct (N.ltb_spec c 128); lia).
    clear - F. induction F as [|c r H F IH]; [constructor|]. cbn [c_str]. destruct (c =? 0); constructor; assumption. }
  unfold from_utf8. rewrite U. do 2 (split; [reflexivity|]). split; [apply c_str_first|]. intros s' H. now apply first_text_iff.
Qed.
Ltac use HS := match goal with K : text_shown _ _ _ _ _ |- _ => apply HS in K | K : email_shown _ _ _ |- _ => apply HS in K | K : counts _ _ |- _ => apply HS in K end.
Ltac unsaid := repeat match goal with K : said _ _ _ |- _ => destruct K as [_ ->] end.
Lemma known_iff G v f k x : gives_utf8 G -> of_its_kind v f -> complete v f -> assoc_b (f_id f) (de_table v) = Some k ->
  (de_known G v k f = GOk x <-> known_object G v f x).
Proof.
  intros HG HK HR HT. unfold of_its_kind in HK. unfold complete in HR. destruct (de_row _ _ _ HT) as (sym & HD & HF & HKd). rewrite HKd in HK.
  assert (ONE : forall s0, documented_id v s0 (f_id f) -> fits_kind k s0 = true).
  { intros s0 H0. destruct (de_doc _ _ _ H0) as (k' & E & F). congruence. }
  assert (NAME : forall k', k' <> FText -> documented_id v (k_name k') (f_id f) -> k = k').
  { intros k' H1 H2. apply name_kind in H2; congruence. }
  destruct (f_body f) eqn:Eb; destruct k; cbn [kind_of_body serde_kind] in HK; try discriminate HK; cbn [de_known]; rewrite ?Eb; try clear HK.
  - (* text *)
    unfold de_text. destruct (doc_known _ _ _ HD) as (_ & -> & _).
    destruct (frame_text_cases G v (tx_unicode t) (tx_text t) HG HR) as [(m & E1 & E2 & U & HS & _)|(e & E1 & HL & HS)]; rewrite E1; cbn [gbind].
    + rewrite E2. cbn [gbind]. split.
      * intros H. injection H as <-. apply (ko_text G v f sym t (c_str m)); [split; [exact HD|now apply fits_not_text]|exact Eb|now apply HS|split; auto].
      * intros H. inversion H; subst; try congruence.
        assert (t0 = t) by congruence. subst t0. use HS. subst s. unsaid. unfold init_frame. f_equal. f_equal. cbn [app]. f_equal. f_equal.
        destruct (doc_known _ _ _ HD) as (_ & X1 & _). match goal with K : text_symbol _ _ _ |- _ => destruct K as [X2 _] end. destruct (doc_known _ _ _ X2) as (_ & X3 & _). congruence.
    + split; [discriminate|]. intros H. inversion H; subst; try congruence. assert (t0 = t) by congruence. subst t0. use HS; contradiction.
  - (* user-defined *)
    destruct HR as [R1 R2]. unfold de_udt.
    assert (ES : sym = B "udt-frame") by (apply (fits_special FUdt); congruence). subst sym.
    destruct (frame_text_cases G v (ud_unicode t) (ud_desc t) HG R1) as [(m & E1 & E2 & U & HS & _)|(e & E1 & HL & HS)]; rewrite E1; cbn [gbind].
    + rewrite E2. cbn [gbind].
      destruct (frame_text_cases G v (ud_unicode t) (ud_text t) HG R2) as [(m' & E1' & E2' & U' & HS' & _)|(e & E1' & HL & HS')]; rewrite E1'; cbn [gbind].
      * rewrite E2'. cbn [gbind]. split.
        -- intros H. injection H as <-. apply (ko_udt G v f t (c_str m) (c_str m')); auto; [now apply HS|split; auto|now apply HS'|split; auto].
        -- intros H. inversion H; subst; try congruence. assert (t0 = t) by congruence. subst t0. use HS. use HS'. subst. unsaid. reflexivity.
      * split; [discriminate|]. intros H. inversion H; subst; try congruence. assert (t0 = t) by congruence. subst t0. use HS'; contradiction.
    + split; [discriminate|]. intros H. inversion H; subst; try congruence. assert (t0 = t) by congruence. subst t0. use HS; contradiction.
  - (* comment *)
    destruct HR as [(l & Hl) (n & Hn & R1 & R2)]. unfold de_comment. rewrite Hl, Hn.
    assert (ES : sym = B "comment-frame") by (apply (fits_special FComment); congruence). subst sym.
    destruct (lang_utf8 G l HG) as (sl & L1 & L2 & L3 & L4). rewrite L1. cbn [gbind].
    destruct (frame_text_cases G v n (co_desc c) HG R1) as [(m & E1 & E2 & U & HS & _)|(e & E1 & HL & HS)]; rewrite E1; cbn [gbind].
    + rewrite E2. cbn [gbind].
      destruct (frame_text_cases G v n (co_text c) HG R2) as [(m' & E1' & E2' & U' & HS' & _)|(e & E1' & HL & HS')]; rewrite E1'; cbn [gbind].
      * rewrite E2'. cbn [gbind]. split.
        -- intros H. injection H as <-. apply (ko_comment G v f c n l sl (c_str m')); auto; [split; auto| |now apply HS'|split; auto].
           exists (c_str m). split; [now apply HS|split; auto].
        -- intros H. inversion H as [|c0 n0 l0 d0 s0 y5 y6 y7 K1 K2 K3 K4 K5 K6 (dsc & K7 & K8) K9 K10| | | |]; subst; try congruence.
           assert (c0 = c) by congruence. subst c0. assert (n0 = n) by congruence. subst n0. assert (l0 = l) by congruence. subst l0.
           apply HS in K7. apply HS' in K9. apply L4 in K5. subst. destruct K6 as [_ ->], K8 as [_ ->], K10 as [_ ->]. reflexivity.
      * split; [discriminate|]. intros H. inversion H as [|c0 n0 l0 d0 s0 y5 y6 y7 K1 K2 K3 K4 K5 K6 (dsc & K7 & K8) K9 K10| | | |]; subst; try congruence.
        assert (c0 = c) by congruence. subst c0. assert (n0 = n) by congruence. subst n0. now apply HS' in K9.
    + split; [discriminate|]. intros H. inversion H as [|c0 n0 l0 d0 s0 y5 y6 y7 K1 K2 K3 K4 K5 K6 (dsc & K7 & K8) K9 K10| | | |]; subst; try congruence.
      assert (c0 = c) by congruence. subst c0. assert (n0 = n) by congruence. subst n0. now apply HS in K7.
  - (* counter *)
    destruct HR as [R1 R2]. unfold de_count. assert (ES : sym = B "play-count-frame") by (apply (fits_special FCount); congruence). subst sym.
    destruct (counter_cases c R1 R2) as [(n & E & HS & _)|(e & E & _ & HS)]; rewrite E; cbn [glift gbind].
    + split.
      * intros H. injection H as <-. apply (ko_count G v f c n); auto. now apply HS.
      * intros H. inversion H; subst; try congruence. assert (c0 = c) by congruence. subst c0. use HS. subst. reflexivity.
    + split; [discriminate|]. intros H. inversion H; subst; try congruence. assert (c0 = c) by congruence. subst c0. use HS; contradiction.
  - (* popularimeter *)
    destruct HR as [R1 R2]. unfold de_popm. assert (ES : sym = B "popm-frame") by (apply (fits_special FPopm); congruence). subst sym.
    destruct (email_cases G p HG) as [(m & E1 & E2 & U & HS & _)|(e & E1 & HL & HS)]; rewrite E1; cbn [glift gbind].
    + rewrite E2. cbn [gbind]. destruct (counter_cases (po_counter p) R1 R2) as [(n & E & HS' & _)|(e & E & _ & HS')]; rewrite E; cbn [glift gbind].
      * split.
        -- intros H. injection H as <-. apply (ko_popm G v f p (c_str m)); auto; [now apply HS|split; auto|now apply HS'].
        -- intros H. inversion H; subst; try congruence. assert (p0 = p) by congruence. subst p0. use HS. use HS'. subst. unsaid. reflexivity.
      * split; [discriminate|]. intros H. inversion H; subst; try congruence. assert (p0 = p) by congruence. subst p0. use HS'; contradiction.
    + split; [discriminate|]. intros H. inversion H; subst; try congruence. assert (p0 = p) by congruence. subst p0. use HS; contradiction.
  - (* cloud *)
    unfold de_cloud. assert (ES : sym = B "tag-cloud-frame") by (apply (fits_special FCloud); congruence). subst sym. split.
    + intros H. destruct (from_utf8 G (tc_owner c)) as [x5|? |? |? |] eqn:E1; try discriminate H. cbn [gbind] in H.
      destruct (de_entries G (tc_tags c) SNull) as [x6|? |? |? |] eqn:E2; try discriminate H. cbn [gbind] in H. injection H as <-.
      apply said_iff in E1 as (s & S1 & S2). apply entries_iff in E2 as (es & F & ->). rewrite fold_pairs, <- slist_fold. now apply (ko_cloud G v f c s).
    + intros H. inversion H; subst; try congruence. assert (c0 = c) by congruence. subst c0.
      assert (E1 : from_utf8 G (tc_owner c) = GOk x5) by (apply said_iff; eauto). rewrite E1. cbn [gbind].
      assert (E2 : de_entries G (tc_tags c) SNull = GOk (slist (rev es))) by (rewrite slist_fold, <- fold_pairs; apply (proj2 (entries_iff G (tc_tags c) SNull _)); exists es; split; [assumption|reflexivity]).
      rewrite E2. reflexivity.
Qed.

(** What is thrown is what cannot be converted, and nothing else stops but clouds. *)
Lemma known_throws G v f k : gives_utf8 G -> of_its_kind v f -> complete v f -> assoc_b (f_id f) (de_table v) = Some k ->
  ((exists e, de_known G v k f = GThrow e) <-> inconvertible G v f) /\
  (k <> FCloud -> (exists x, de_known G v k f = GOk x) \/ (exists e, de_known G v k f = GThrow e)).
Proof.
  intros HG HK HR HT. unfold of_its_kind in HK. unfold complete in HR. destruct (de_row _ _ _ HT) as (sym & HD & HF & HKd). rewrite HKd in HK. unfold inconvertible.
  destruct (f_body f) eqn:Eb; destruct k; cbn [kind_of_body serde_kind] in HK; try discriminate HK; cbn [de_known]; rewrite ?Eb; try clear HK.
  - unfold de_text. destruct (doc_known _ _ _ HD) as (_ & -> & _).
    destruct (frame_text_cases G v (tx_unicode t) (tx_text t) HG HR) as [(m & E1 & E2 & U & HS & HL)|(e & E1 & HL & HS)]; rewrite E1; cbn [gbind]; rewrite ?E2; cbn [gbind].
    + split; [|eauto]. split; [intros [? K]; discriminate K|intros K; contradiction].
    + split; [|eauto]. split; eauto.
  - destruct HR as [R1 R2]. unfold de_udt.
    destruct (frame_text_cases G v (ud_unicode t) (ud_desc t) HG R1) as [(m & E1 & E2 & U & HS & HL)|(e & E1 & HL & HS)]; rewrite E1; cbn [gbind]; rewrite ?E2; cbn [gbind]; [|split; eauto; split; eauto].
    destruct (frame_text_cases G v (ud_unicode t) (ud_text t) HG R2) as [(m' & E1' & E2' & U' & HS' & HL')|(e & E1' & HL' & HS')]; rewrite E1'; cbn [gbind]; rewrite ?E2'; cbn [gbind]; [|split; eauto; split; eauto].
    split; [|eauto]. split; [intros [? K]; discriminate K|intros [K|K]; contradiction].
  - destruct HR as [(l & Hl) (n & Hn & R1 & R2)]. unfold de_comment. rewrite Hl, Hn.
    destruct (lang_utf8 G l HG) as (sl & L1 & L2 & L3 & L4). rewrite L1. cbn [gbind].
    destruct (frame_text_cases G v n (co_desc c) HG R1) as [(m & E1 & E2 & U & HS & HL)|(e & E1 & HL & HS)]; rewrite E1; cbn [gbind]; rewrite ?E2; cbn [gbind]; [|split; eauto; split; eauto].
    destruct (frame_text_cases G v n (co_text c) HG R2) as [(m' & E1' & E2' & U' & HS' & HL')|(e & E1' & HL' & HS')]; rewrite E1'; cbn [gbind]; rewrite ?E2'; cbn [gbind]; [|split; eauto; split; eauto].
    split; [|eauto]. split; [intros [? K]; discriminate K|intros (n' & Hn' & K)]. assert (n' = n) by congruence. subst n'. destruct K; contradiction.
  - destruct HR as [R1 R2]. unfold de_count.
    destruct (counter_cases c R1 R2) as [(n & E & HS & HL)|(e & E & HL & HS)]; rewrite E; cbn [glift gbind]; (split; [|eauto]); split; eauto; [intros [? K]; discriminate K|intros K; contradiction].
  - destruct HR as [R1 R2]. unfold de_popm.
    destruct (email_cases G p HG) as [(m & E1 & E2 & U & HS & HL)|(e & E1 & HL & HS)]; rewrite E1; cbn [glift gbind]; rewrite ?E2; cbn [gbind]; [|split; eauto; split; eauto].
    destruct (counter_cases (po_counter p) R1 R2) as [(n & E & HS' & HL')|(e & E & HL' & HS')]; rewrite E; cbn [glift gbind]; (split; [|eauto]); split; eauto; [intros [? K]; discriminate K|intros [K|K]; contradiction].
  - split; [|congruence]. split; [|intros []]. intros [e K]. exfalso. unfold de_cloud, from_utf8 in K. destruct (g_utf8 G (c_str (tc_owner c))); try discriminate K. cbn [gbind] in K.
    assert (X : forall m lst, match de_entries G m lst with GThrow _ => False | _ => True end).
    { clear. induction m as [|[k vs] m IH]; intros lst; cbn [de_entries]; [exact I|].
      assert (Y : match gmap (from_stringn G) vs with GThrow _ => False | _ => True end).
      { induction vs as [|a vs IHv]; cbn [gmap]; [exact I|]. unfold from_stringn at 1. destruct (g_utf8 G a); [|destruct (g_escape G a); [|exact I]]; cbn [gbind]; destruct (gmap (from_stringn G) vs); cbn [gbind]; auto. }
      destruct (gmap (from_stringn G) vs); cbn [gbind]; auto. unfold from_utf8. destruct (g_utf8 G (c_str k)); cbn [gbind]; auto. apply IH. }
    specialize (X (tc_tags c) SNull). destruct (de_entries G (tc_tags c) SNull); try discriminate K. exact X.
Qed.
Lemma other_iff G z v u f x : de_unknown G z v u (new_frame f) = GOk x <-> other_object G z v u f x.
Proof.
  unfold de_unknown, from_locale, frame_bytes, refresh. cbn [new_frame c_frame c_dirty]. split.
  - intros H. destruct (g_from_locale G (c_str (f_id f))) as [idt|] eqn:E; try discriminate H. cbn [gbind] in H.
    destruct (wire_of z v f) as [p|? |? |] eqn:W; try discriminate H. cbn [bind glift gbind] in H. injection H as <-.
    apply (oo_unknown G z v u f (c_str (f_id f)) idt); [apply c_str_first|exact E|]. exists p. split; [exact W|]. destruct v, u; reflexivity.
  - intros H. inversion H as [i idt w H1 H2 (p & W & ->)]; subst. apply first_text_iff in H1. subst i. rewrite H2. cbn [gbind]. rewrite W. cbn [bind glift gbind].
    destruct v, u; reflexivity.
Qed.
Lemma objects_l G z v u f x : gives_utf8 G -> of_its_kind v f -> complete v f ->
  (de G z v u (new_frame f) = GOk x <-> frame_shown G z v u f x).
Proof.
  intros HG HK HR. unfold frame_shown, de. cbn [new_frame c_frame]. destruct (assoc_b (f_id f) (de_table v)) as [k|] eqn:E.
  - pose proof (known_iff G v f k x HG HK HR E) as KI. destruct (known_throws G v f k HG HK HR E) as [KT _].
    assert (NS : ~ no_symbol v f) by (intros X; apply none_undocumented in X; congruence).
    destruct (de_known G v k f) as [y|er|ex|ub|] eqn:D; cbn [gcatch].
    + rewrite KI. split; [auto|]. intros [H|[[H|H] _]]; [exact H|contradiction|]. apply KT in H as [? H]. discriminate H.
    + split; [discriminate|]. intros [H|[[H|H] _]]; [apply KI in H; discriminate H|contradiction|]. apply KT in H as [? H]. discriminate H.
    + change (de_unknown G z v u (mkC f true [] [] 0)) with (de_unknown G z v u (new_frame f)). rewrite other_iff. split.
      * intros H. right. split; [right; apply KT; eauto|exact H].
      * intros [H|[_ H]]; [apply KI in H; discriminate H|exact H].
    + split; [discriminate|]. intros [H|[[H|H] _]]; [apply KI in H; discriminate H|contradiction|]. apply KT in H as [? H]. discriminate H.
    + split; [discriminate|]. intros [H|[[H|H] _]]; [apply KI in H; discriminate H|contradiction|]. apply KT in H as [? H]. discriminate H.
  - change (de_unknown G z v u (mkC f true [] [] 0)) with (de_unknown G z v u (new_frame f)). rewrite other_iff. apply none_undocumented in E. split; [intros H; right; auto|].
    intros [H|[_ H]]; [|exact H]. exfalso. destruct H; match goal with K : text_symbol _ _ _ |- _ => destruct K as [K _]; exact (E _ K) | K : documented_id _ _ _ |- _ => exact (E _ K) end.
Qed.

(** ** Tags and files *)
Lemma pads_small t : padding t < 2 ^ 32 -> low32 (padding t) = Z.of_N (padding t).
Proof. intros H. unfold low32. rewrite N.mod_small; [reflexivity|exact H]. Qed.
Lemma frames_shown G z v u l ys : gives_utf8 G -> Forall (of_its_kind v) l -> Forall (complete v) l ->
  (gmap (de G z v u) (map new_frame l) = GOk ys <-> Forall2 (frame_shown G z v u) l ys).
Proof.
  intros HG H1 H2. rewrite gmap_iff. revert ys. induction l as [|f l IH]; intros ys.
  - split; intros H; inversion H; constructor.
  - apply Forall_cons_iff in H1 as [K1 H1]. apply Forall_cons_iff in H2 as [K2 H2]. specialize (IH H1 H2). cbn [map]. split; intros H; inversion H; subst; constructor;
      try (now apply IH); now apply objects_l.
Qed.
Lemma tag_l G z t x : gives_utf8 G -> fresh t -> Forall (complete (any_version t)) (shown t) -> padding t < 2 ^ 32 ->
  (from_tag G z t = GOk x <-> tag_shown G z t x).
Proof.
  intros HG (HF & HP & _) HC HL. assert (HK : Forall (of_its_kind (any_version t)) (shown t)).
  { revert HP. apply Forall_impl. unfold parsed_frame, of_its_kind. intros f H. now rewrite H. }
  pose proof (pads_small t HL) as PS. unfold tag_shown. set (l := shown t) in *. clearbody l.
  destruct t as [t|t|t]; cbn [any_frames any_version padding version_number experimental is_unsync from_tag] in *; rewrite HF; unfold flagged; rewrite PS.
  - pose proof (fun ys => frames_shown G z V22 (match t2_unsync t with Some b => b | None => false end) l ys HG HK HC) as FS. split.
    + intros H. binds H. injection H as <-. exists a. split; [now apply FS|reflexivity].
    + intros (ys & F & ->). apply FS in F. rewrite F. reflexivity.
  - pose proof (fun ys => frames_shown G z V23 (match t3_unsync t with Some b => b | None => false end) l ys HG HK HC) as FS. split.
    + intros H. binds H. injection H as <-. exists a. split; [now apply FS|reflexivity].
    + intros (ys & F & ->). apply FS in F. rewrite F. reflexivity.
  - pose proof (fun ys => frames_shown G z V24 (match t4_unsync t with Some b => b | None => false end) l ys HG HK HC) as FS. split.
    + intros H. binds H. injection H as <-. exists a. split; [now apply FS|reflexivity].
    + intros (ys & F & ->). apply FS in F. rewrite F. reflexivity.
Qed.
Lemma file_l G z passes cwd fs pth p d ts s x : gives_utf8 G -> to_locale G pth = GOk p -> find_node (resolve cwd p) fs = Some (File d) ->
  read_all_id3v2 z passes (open_file d goodbit) = (Ok ts, s) ->
  Forall (fun t => Forall (complete (any_version t)) (shown t) /\ padding t < 2 ^ 32) ts ->
  (read_tagset_scm G z passes cwd fs pth = GOk x <-> exists xs, Forall2 (tag_shown G z) ts xs /\ x = slist xs).
Proof.
  intros HG HP HF HR HT. unfold read_tagset_scm. rewrite HP. cbn [gbind]. unfold file_data. rewrite HF, HR. cbn [fst].
  assert (FR : Forall fresh ts).
  { unfold read_all_id3v2 in HR. apply read_loop_fresh in HR. revert HR. apply Forall_impl. intros t [H _]. exact H. }
  assert (E : forall xs, gmap (from_tag G z) ts = GOk xs <-> Forall2 (tag_shown G z) ts xs).
  { intros xs. rewrite gmap_iff. clear - HG HT FR. revert xs. induction ts as [|t ts IH]; intros xs; [split; intros H; inversion H; constructor|].
    apply Forall_cons_iff in HT as [[K1 K2] HT]. apply Forall_cons_iff in FR as [K3 FR]. specialize (IH HT FR).
    split; intros H; inversion H; subst; constructor; try (now apply IH); now apply tag_l. }
  unfold as_scribbu. split.
  - intros H. destruct (gmap (from_tag G z) ts) as [xs|? |? |? |]; cbn [gbind gcatch] in H; try discriminate H. injection H as <-. exists xs. split; [now apply E|reflexivity].
  - intros (xs & F & ->). apply E in F. rewrite F. reflexivity.
Qed.

(** ** What is not as it should be *)
Lemma several_l G z v u f sym t e out a b x : gives_utf8 G -> text_symbol v sym (f_id f) -> f_body f = BText t -> ~ unmarked_be v (tx_unicode t) (tx_text t) -> tx_text t <> [] ->
  stored_as v (tx_unicode t) (tx_text t) = Some e -> g_ic G e E_UTF_8 NoFail (tx_text t) = Some out -> trimmed out (a ++ 0 :: b) -> no_nul a ->
  de G z v u (new_frame f) = GOk x -> x = SObj CText (SSym sym :: marks_of v (f_flags f) ++ [SStr a]).
Proof.
  intros HG HS HB HU HN HE HO HT HA H. assert (K : of_its_kind v f).
  { unfold of_its_kind. rewrite HB. cbn [kind_of_body]. symmetry. exact (proj2 (proj2 (doc_text _ _ _ HS))). }
  assert (C : complete v f) by (unfold complete; rewrite HB; exact HU).
  assert (TS : text_shown G v (tx_unicode t) (tx_text t) a).
  { right. split; [exact HN|]. exists e, out, (a ++ 0 :: b). do 3 (split; [assumption|]). split; [exact HA|right; exists b; reflexivity]. }
  assert (U : g_utf8 G a = true).
  { destruct HG as [HG _]. destruct (HG _ _ _ _ HO) as [_ X]. apply (X _ _ HT). split; [exact HA|right; exists b; reflexivity]. }
  assert (G1 : de G z v u (new_frame f) = GOk (SObj CText (SSym sym :: marks_of v (f_flags f) ++ [SStr a]))).
  { apply objects_l; [exact HG|exact K|exact C|]. left. apply (ko_text G v f sym t a); auto. split; auto. }
  congruence.
Qed.
Lemma be_l G z u f sym t out m s : gives_utf8 G -> text_symbol V24 sym (f_id f) -> f_body f = BText t -> unmarked_be V24 (tx_unicode t) (tx_text t) ->
  (forall r, tx_text t <> 255 :: 254 :: r) -> g_ic G E_UTF_16 E_UTF_8 NoFail (tx_text t) = Some out -> trimmed out m -> first_text m s ->
  de G z V24 u (new_frame f) = GOk (SObj CText (SSym sym :: marks_of V24 (f_flags f) ++ [SStr s])).
Proof.
  intros HG HS HB (_ & HU & HN & H1) H2 HO HT HF. unfold de. cbn [new_frame c_frame]. destruct (doc_text _ _ _ HS) as (_ & -> & _).
  destruct HS as [HD HN2]. cbn [de_known]. rewrite HB. unfold de_text. destruct (doc_known _ _ _ HD) as (_ & -> & _). unfold frame_text.
  destruct t as [n b]. cbn [tx_unicode tx_text] in *. destruct b as [|y r] eqn:Eb; [congruence|]. rewrite <- Eb in *.
  assert (E : text_source V24 (mkText n b) = Ok E_UTF_16).
  { unfold text_source. cbn [tx_unicode tx_text]. rewrite HU. cbn [N.eqb Pos.eqb orb]. subst b. destruct (N.eq_dec y 254) as [->|Y1].
    - destruct r as [|y2 r]; [reflexivity|]. destruct (N.eq_dec y2 255) as [->|Y2]; [elim (H1 r); reflexivity|].
      repeat first [reflexivity|match goal with |- Ok match ?x with _ => _ end = _ => destruct x end]; congruence.
    - destruct (N.eq_dec y 255) as [->|Y3].
      + destruct r as [|y2 r]; [reflexivity|]. destruct (N.eq_dec y2 254) as [->|Y2]; [elim (H2 r); reflexivity|].
        repeat first [reflexivity|match goal with |- Ok match ?x with _ => _ end = _ => destruct x end]; congruence.
      + repeat first [reflexivity|match goal with |- Ok match ?x with _ => _ end = _ => destruct x end]; congruence. }
  assert (X : text_as_str V24 (g_ic G) (mkText n b) E_UTF_8 NoFail None = Ok (rtrim (drop_bom out))).
  { unfold text_as_str. cbn [tx_text]. rewrite E. cbn [bind]. unfold to_string. cbn [char_unit negb]. rewrite HO. now rewrite Eb. }
  rewrite X. cbn [glift gbind]. destruct HG as [HG _]. destruct (HG _ _ _ _ HO) as [F U]. pose proof (proj1 (trimmed_iff out m F) HT) as EM. rewrite <- EM.
  pose proof (U _ _ HT HF) as U'. apply first_text_iff in HF. unfold from_utf8. rewrite <- HF, U'. cbn [gbind gcatch]. reflexivity.
Qed.
Lemma cloud_l G z v u f c s : documented_id v (B "tag-cloud-frame") (f_id f) -> f_body f = BCloud c -> first_text (tc_owner c) s -> g_utf8 G s = false ->
  de G z v u (new_frame f) = GRaise Decoding.
Proof.
  intros HD HB HF HU. unfold de. cbn [new_frame c_frame]. rewrite (name_kind v FCloud (f_id f)) by (discriminate || exact HD). cbn [de_known]. rewrite HB.
  unfold de_cloud, from_utf8. apply first_text_iff in HF. rewrite <- HF, HU. reflexivity.
Qed.
Lemma gmap_all {A B} (g : A -> gres B) l r a : gmap g l = GOk r -> In a l -> exists b, g a = GOk b.
Proof.
  intros H HI. apply gmap_iff in H. induction H as [|x y l r E F IH]; [elim HI|]. destruct HI as [->|HI]; [eauto|auto].
Qed.
Lemma cloud_file G z passes cwd fs pth p d ts st t f c s : to_locale G pth = GOk p -> find_node (resolve cwd p) fs = Some (File d) ->
  read_all_id3v2 z passes (open_file d goodbit) = (Ok ts, st) -> In t ts -> In f (shown t) ->
  documented_id (any_version t) (B "tag-cloud-frame") (f_id f) -> f_body f = BCloud c -> first_text (tc_owner c) s -> g_utf8 G s = false ->
  forall x, read_tagset_scm G z passes cwd fs pth <> GOk x.
Proof.
  intros HP HF HR HT HI HD HB H1 H2 x. unfold read_tagset_scm. rewrite HP. cbn [gbind]. unfold file_data. rewrite HF, HR. cbn [fst]. unfold as_scribbu.
  assert (FR : fresh t).
  { unfold read_all_id3v2 in HR. apply read_loop_fresh in HR. rewrite Forall_forall in HR. exact (proj1 (HR t HT)). }
  destruct FR as [FR _].
  assert (NO : forall y, from_tag G z t <> GOk y).
  { intros y H. assert (D : forall v u, v = any_version t -> de G z v u (new_frame f) = GRaise Decoding) by (intros v u ->; eapply cloud_l; eauto).
    destruct t as [t|t|t]; cbn [from_tag any_frames any_version] in *; rewrite FR in H; binds H;
      (eapply gmap_all in E as (b & E); [|apply in_map; exact HI]); rewrite D in E by reflexivity; discriminate E. }
  intros H. destruct (gmap (from_tag G z) ts) as [xs|? |? |? |] eqn:E; cbn [gbind gcatch] in H; try discriminate H.
  apply (gmap_all _ _ _ t) in E as (b & E); [|exact HT]. exact (NO _ E).
Qed.
Lemma bytes22_l G z u f w idt i : no_symbol V22 f -> wire22 f = Ok w -> first_text (f_id f) i -> g_from_locale G i = Some idt ->
  de G z V22 u (new_frame f) = GOk (SObj CUnk (SSym (B "unknown-frame") :: marks_of V22 (f_flags f) ++ [SStr idt; SBytes (if u then w else unsynchronise w false)])).
Proof.
  intros HS HW HF HL. unfold de. apply none_undocumented in HS. cbn [new_frame c_frame]. rewrite HS.
  change (de_unknown G z V22 u (mkC f true [] [] 0)) with (de_unknown G z V22 u (new_frame f)). apply other_iff. econstructor; [exact HF|exact HL|]. exists w. split; [exact HW|]. now destruct u.
Qed.
