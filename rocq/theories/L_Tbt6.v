(** * Proofs about templates: evaluation. *)
From Verif Require Import Base M_Charset M_Genres M_Tbt S_Tbt L_Tbt L_Tbt2 L_Tbt3 L_Tbt4.

(** ** Concatenation. *)
Lemma eval_terms_acc : forall ct ic c l acc, eval_terms ct ic c acc l = let* s := eval_terms ct ic c [] l in Ok (acc ++ s).
Proof.
  intros ct ic c. induction l as [|x l IH]; intro acc; cbn [eval_terms].
  - cbn [bind]. rewrite app_nil_r. reflexivity.
  - destruct (eval_term ct ic c x) as [s|x'|u|]; cbn [bind]; try reflexivity.
    rewrite (IH (acc ++ s)), (IH ([] ++ s)). cbn [app].
    destruct (eval_terms ct ic c [] l); cbn [bind]; try reflexivity. rewrite app_assoc. reflexivity.
Qed.
Theorem process_app : forall ct ic c l1 l2, process ct ic c (l1 ++ l2) =
  let* a := process ct ic c l1 in let* b := process ct ic c l2 in Ok (a ++ b).
Proof.
  intros ct ic c l1 l2. unfold process. induction l1 as [|x l1 IH].
  - cbn [app eval_terms bind]. destruct (eval_terms ct ic c [] l2); reflexivity.
  - cbn [app eval_terms]. destruct (eval_term ct ic c x) as [s|x'|u|]; cbn [bind]; try reflexivity.
    rewrite eval_terms_acc, (eval_terms_acc _ _ _ l1), IH.
    destruct (eval_terms ct ic c [] l1); cbn [bind]; try reflexivity.
    destruct (eval_terms ct ic c [] l2); cbn [bind]; try reflexivity.
    cbn [app]. rewrite app_assoc. reflexivity.
Qed.
Lemma process_one : forall ct ic c x, process ct ic c [x] = eval_term ct ic c x.
Proof.
  intros ct ic c x. unfold process. cbn [eval_terms]. destruct (eval_term ct ic c x); cbn [bind app]; reflexivity.
Qed.

(** Literal text alone: any characters but NUL. *)
Theorem literal_compiles : forall t, literal_ok t ->
  template_processor Init (escape_literal t) = (Ok [TText (equals_escaped t)], Init).
Proof.
  intros t [Ht Hn]. unfold template_processor.
  rewrite c_str_id by (apply escape_nul_free; exact Hn).
  pose proof (scans_literal t [] [] Init Ht stops_nil (scans_nil Init)) as W. rewrite app_nil_r in W.
  rewrite (scans_lex _ _ _ _ W). reflexivity.
Qed.

Lemma equals_escaped_len : forall t, (List.length t <= List.length (equals_escaped t))%nat.
Proof.
  induction t as [|c t IH]; [cbn; lia|].
  change (equals_escaped (c :: t)) with ((if c =? 61 then [92; 61] else [c]) ++ equals_escaped t).
  rewrite app_length. destruct (c =? 61); cbn [List.length]; lia.
Qed.
Lemma equals_escaped_neq : forall t, In 61 t -> equals_escaped t <> t.
Proof.
  intros t H E. assert (L : (List.length t < List.length (equals_escaped t))%nat).
  { clear E. induction t as [|c t IH]; [destruct H|].
    change (equals_escaped (c :: t)) with ((if c =? 61 then [92; 61] else [c]) ++ equals_escaped t).
    rewrite app_length. destruct (N.eqb_spec c 61) as [->|Hc].
    - pose proof (equals_escaped_len t). cbn [List.length]. lia.
    - destruct H as [-> | H]; [contradiction|]. specialize (IH H). cbn [List.length]. lia. }
  rewrite E in L. lia.
Qed.

(** ** Sources. *)
Lemma v1_field_value : forall c k,
  (match k with
   | Album => v1_field c o_album | Artist => v1_field c o_artist
   | ContentType => v1_field c v1_genre | Title => v1_field c o_title end) = v1_value c k.
Proof.
  intros c k. unfold v1_value, v1_field. destruct (c_v1 c) as [t|]; [|destruct k; reflexivity].
  destruct k; try reflexivity. unfold v1_genre. destruct (o_enh_genre t) as [|a r]; [reflexivity|].
  rewrite len_cons. destruct (N.eqb_spec (1 + len r) 0); [lia|]. reflexivity.
Qed.
Definition v2_option (c : context) (k : aacet_kind) : option bytes :=
  match k with
  | Album => v2_field c t_album | Artist => v2_field c t_artist
  | ContentType => v2_field c t_content | Title => v2_field c t_title end.
Lemma v2_option_value : forall c k, nonempty (v2_option c k) = match v2_value c k with [] => None | s => Some s end.
Proof.
  intros c k. unfold v2_option, v2_value, v2_field. destruct (c_v2 c) as [t|]; [|destruct k; reflexivity].
  destruct k; [destruct (t_album t) as [[|a r]|] | destruct (t_artist t) as [[|a r]|]
              | destruct (t_content t) as [[|a r]|] | destruct (t_title t) as [[|a r]|]]; reflexivity.
Qed.
Lemma eval_aacet_eq : forall ct ic c k o, eval_term ct ic c (TAacet k o) =
  let* s := source_text ic (v1_value c k) (v2_option c k) (a_sp o) (a_v1 o) in xform_and_encode ct ic o s.
Proof.
  intros ct ic c k o. cbn [eval_term]. unfold eval_aacet. rewrite <- (v1_field_value c k). destruct k; reflexivity.
Qed.

Lemma named_decode : forall ic raw e x text, raw <> [] -> named_encoding e = Some x ->
  to_string ic raw x E_UTF_8 NoFail = Ok text -> v1_text_to_utf8 ic raw e = Ok text.
Proof.
  intros ic raw e x text Hr He H. destruct raw as [|a r]; [contradiction|]. unfold v1_text_to_utf8.
  destruct e; try discriminate He; cbn [v1_detect]; injection He as <-; exact H.
Qed.
Lemma no_bom_detect : forall raw, no_bom raw -> v1_detect raw V1Auto = V1Auto.
Proof.
  intros raw [H1 [H2 H3]]. destruct raw as [|a r]; [reflexivity|].
  unfold v1_detect.
  destruct (N.eq_dec a 0xef) as [->|Na1].
  { destruct r as [|b r]; [reflexivity|]. destruct (N.eq_dec b 0xbb) as [->|Nb].
    - destruct r as [|d r]; [reflexivity|]. destruct (N.eq_dec d 0xbf) as [->|Nd]; [exfalso; exact (H1 r eq_refl)|].
      destruct d as [|d]; [reflexivity|]. repeat (destruct d as [d|d|]; try reflexivity; try (exfalso; apply Nd; reflexivity)).
    - destruct b as [|b]; [reflexivity|]. repeat (destruct b as [b|b|]; try reflexivity; try (exfalso; apply Nb; reflexivity)). }
  destruct (N.eq_dec a 0xfe) as [->|Na2].
  { destruct r as [|b r]; [reflexivity|]. destruct (N.eq_dec b 0xff) as [->|Nb]; [exfalso; exact (H2 r eq_refl)|].
    destruct b as [|b]; [reflexivity|]. repeat (destruct b as [b|b|]; try reflexivity; try (exfalso; apply Nb; reflexivity)). }
  destruct (N.eq_dec a 0xff) as [->|Na3].
  { destruct r as [|b r]; [reflexivity|]. destruct (N.eq_dec b 0xfe) as [->|Nb]; [exfalso; exact (H3 r eq_refl)|].
    destruct b as [|b]; [reflexivity|]. repeat (destruct b as [b|b|]; try reflexivity; try (exfalso; apply Nb; reflexivity)). }
  destruct a as [|a]; [reflexivity|].
  repeat (destruct a as [a|a|]; try reflexivity; try (exfalso; apply Na1; reflexivity);
          try (exfalso; apply Na2; reflexivity); try (exfalso; apply Na3; reflexivity)).
Qed.
Lemma auto_throws : forall ic raw, raw <> [] -> no_bom raw -> v1_text_to_utf8 ic raw V1Auto = Throw InvalidArgument.
Proof.
  intros ic raw Hr H. destruct raw as [|a r]; [contradiction|]. unfold v1_text_to_utf8.
  rewrite (no_bom_detect _ H). reflexivity.
Qed.

Theorem source_prefer_v2 : forall ct ic c k o text, a_sp o = PreferV2 -> v1_reads ic (a_v1 o) (v1_value c k) text ->
  process ct ic c [TAacet k o] = let* s := choose (v2_value c k) text in xform_and_encode ct ic o s.
Proof.
  intros ct ic c k o text Hp Hr. rewrite process_one, eval_aacet_eq, Hp. unfold source_text. rewrite v2_option_value.
  destruct (v2_value c k) as [|a r]; [|reflexivity].
  destruct Hr as [[E ->] | [Hn [x [He Ht]]]].
  - rewrite E. reflexivity.
  - rewrite (named_decode _ _ _ _ _ Hn He Ht). destruct (v1_value c k) as [|a r]; [contradiction|].
    destruct text; reflexivity.
Qed.
Theorem source_prefer_v1 : forall ct ic c k o text, a_sp o = PreferV1 -> v1_reads ic (a_v1 o) (v1_value c k) text ->
  (v1_value c k = [] \/ text <> []) ->
  process ct ic c [TAacet k o] = let* s := choose text (v2_value c k) in xform_and_encode ct ic o s.
Proof.
  intros ct ic c k o text Hp Hr Hb. rewrite process_one, eval_aacet_eq, Hp. unfold source_text. rewrite v2_option_value.
  destruct Hr as [[E ->] | [Hn [x [He Ht]]]].
  - rewrite E. destruct (v2_value c k); reflexivity.
  - rewrite (named_decode _ _ _ _ _ Hn He Ht). destruct (v1_value c k) as [|a r]; [contradiction|].
    destruct text as [|b t]; [destruct Hb as [Hb | Hb]; [discriminate Hb | contradiction]|]. reflexivity.
Qed.
Theorem source_prefer_v1_blank : forall ct ic c k o, a_sp o = PreferV1 -> v1_reads ic (a_v1 o) (v1_value c k) [] ->
  v1_value c k <> [] -> process ct ic c [TAacet k o] = Throw TemplateError.
Proof.
  intros ct ic c k o Hp Hr Hb. rewrite process_one, eval_aacet_eq, Hp. unfold source_text.
  destruct Hr as [[E _] | [Hn [x [He Ht]]]]; [contradiction|].
  rewrite (named_decode _ _ _ _ _ Hn He Ht). destruct (v1_value c k) as [|a r]; [contradiction|]. reflexivity.
Qed.
Theorem source_automatic : forall ct ic c k o, a_v1 o = V1Auto ->
  (a_sp o = PreferV1 \/ a_sp o = PreferV2 /\ v2_value c k = []) -> v1_value c k <> [] -> no_bom (v1_value c k) ->
  process ct ic c [TAacet k o] = Throw InvalidArgument.
Proof.
  intros ct ic c k o He Hp Hn Hb. rewrite process_one, eval_aacet_eq, He.
  pose proof (auto_throws ic _ Hn Hb) as T. unfold source_text. rewrite v2_option_value, T.
  destruct (v1_value c k) as [|a r]; [contradiction|].
  destruct Hp as [-> | [-> ->]]; reflexivity.
Qed.

(** ** Articles. *)
Lemma iequals_spells : forall ct w a, iequals ct w a = true <-> spells ct w a.
Proof.
  intros ct. unfold spells. induction w as [|x w IH]; intros [|y a]; cbn [iequals].
  - split; [constructor | reflexivity].
  - split; [discriminate | intro H; inversion H].
  - split; [discriminate | intro H; inversion H].
  - rewrite andb_true_iff, N.eqb_eq, IH. split.
    + intros [H1 H2]. constructor; assumption.
    + intro H. inversion H; subst. split; assumption.
Qed.
Lemma spells_len : forall ct w a, spells ct w a -> len a = len w.
Proof. intros ct w a H. unfold spells in H. induction H; [reflexivity|]. rewrite !len_cons, IHForall2. reflexivity. Qed.
Lemma spells_refl : forall ct w, spells ct w w.
Proof. intros ct w. unfold spells. induction w; constructor; auto. Qed.

Lemma the_suffix : forall ct a r, spells ct (B "The ") a -> r <> [] ->
  do_the_xform ct (a ++ r) MakeSuffix = r ++ B ", The".
Proof.
  intros ct a r H Hr. pose proof (spells_len _ _ _ H) as L. change (len (B "The ")) with 4 in L.
  unfold do_the_xform. rewrite len_app, L.
  assert (len r <> 0) by (destruct r; [contradiction | rewrite len_cons; lia]).
  destruct (N.leb_spec 5 (4 + len r)); [|lia]. cbn [andb].
  rewrite (takeN_app_exact 4 a r L), (proj2 (iequals_spells ct (B "The ") a) H), (dropN_app_exact 4 a r L). reflexivity.
Qed.
Lemma the_prefix : forall ct a r, spells ct (B ", The") a ->
  do_the_xform ct (r ++ a) MakePrefix = B "The " ++ r.
Proof.
  intros ct a r H. pose proof (spells_len _ _ _ H) as L. change (len (B ", The")) with 5 in L.
  unfold do_the_xform. rewrite len_app, L.
  destruct (N.leb_spec 5 (len r + 5)); [|lia]. cbn [andb].
  replace (len r + 5 - 5) with (len r) by lia.
  rewrite (dropN_app_exact (len r) r a eq_refl), (proj2 (iequals_spells ct (B ", The") a) H), (takeN_app_exact (len r) r a eq_refl). reflexivity.
Qed.
Lemma the_suffix_other : forall ct text, (forall a r, text = a ++ r -> spells ct (B "The ") a -> r = []) ->
  do_the_xform ct text MakeSuffix = text.
Proof.
  intros ct text H. unfold do_the_xform.
  destruct (N.leb_spec 5 (len text)); [|reflexivity]. cbn [andb].
  destruct (iequals ct (B "The ") (takeN 4 text)) eqn:E; [|reflexivity]. exfalso.
  apply iequals_spells in E. specialize (H (takeN 4 text) (dropN 4 text) (eq_sym (takeN_dropN 4 text)) E).
  pose proof (len_dropN 4 text) as L. rewrite H in L. change (len (@nil N)) with 0 in L. lia.
Qed.
Lemma the_prefix_other : forall ct text, (forall a r, text = r ++ a -> ~ spells ct (B ", The") a) ->
  do_the_xform ct text MakePrefix = text.
Proof.
  intros ct text H. unfold do_the_xform.
  destruct (N.leb_spec 5 (len text)); [|reflexivity]. cbn [andb].
  destruct (iequals ct (B ", The") (dropN (len text - 5) text)) eqn:E; [|reflexivity]. exfalso.
  apply iequals_spells in E. exact (H _ _ (eq_sym (takeN_dropN (len text - 5) text)) E).
Qed.
Lemma the_there_and_back : forall ct a r, spells ct (B "The ") a -> r <> [] ->
  do_the_xform ct (do_the_xform ct (a ++ r) MakeSuffix) MakePrefix = B "The " ++ r.
Proof.
  intros ct a r H Hr. rewrite the_suffix by assumption. apply the_prefix. apply spells_refl.
Qed.
Lemma the_back_and_there : forall ct a r, spells ct (B ", The") a -> r <> [] ->
  do_the_xform ct (do_the_xform ct (r ++ a) MakePrefix) MakeSuffix = r ++ B ", The".
Proof.
  intros ct a r H Hr. rewrite the_prefix by assumption. apply the_suffix; [apply spells_refl | exact Hr].
Qed.
Lemma the_only_article : forall ct a, spells ct (B ", The") a ->
  do_the_xform ct (do_the_xform ct a MakePrefix) MakeSuffix = B "The ".
Proof.
  intros ct a H. rewrite <- (app_nil_l a), (the_prefix ct a [] H). reflexivity.
Qed.

(** Through a template. *)
Theorem the_title : forall ct ic c x a r, v2_value c Title = a ++ x :: r -> spells ct (B "The ") a ->
  process ct ic c [TAacet Title aacet_default] = Ok (ct_upper ct x :: r ++ B ", The").
Proof.
  intros ct ic c x a r E H. rewrite process_one, eval_aacet_eq. cbn [a_sp a_v1 aacet_default].
  unfold source_text. rewrite v2_option_value, E.
  pose proof (spells_len _ _ _ H) as L. destruct a as [|y a]; [discriminate L|].
  change ((y :: a) ++ x :: r) with (y :: (a ++ x :: r)). cbn [bind].
  unfold xform_and_encode. cbn [a_the a_cap a_compress a_replace a_out aacet_default].
  change (y :: (a ++ x :: r)) with ((y :: a) ++ x :: r).
  rewrite the_suffix by (assumption || discriminate).
  reflexivity.
Qed.

(** ** White space. *)
Lemma ws_each : forall text compress w, w <> [] -> do_ws_xform text compress w = replace_each w text.
Proof.
  intros text compress w H. unfold do_ws_xform, replace_each, blank.
  destruct w as [|a w]; [contradiction|].
  assert (E : (len (a :: w) =? 0) = false) by (rewrite len_cons; destruct (N.eqb_spec (1 + len w) 0); [lia | reflexivity]).
  rewrite E, andb_false_r. reflexivity.
Qed.
Lemma ws_compress : forall text, do_ws_xform text true [] = replace_each [32] text.
Proof. reflexivity. Qed.
Lemma ws_none : forall text, do_ws_xform text false [] = text.
Proof. reflexivity. Qed.

Definition no_runs (text : bytes) : Prop := forall a b x y, text = a ++ x :: y :: b -> blank x = true -> blank y = true -> False.

Lemma runs_each : forall w text inside, no_runs text ->
  (inside = true -> forall x r, text = x :: r -> blank x = false) ->
  replace_runs w inside text = replace_each w text.
Proof.
  induction text as [|c r IH]; intros inside H Hi; [reflexivity|].
  cbn [replace_runs].
  change (replace_each w (c :: r)) with ((if blank c then w else [c]) ++ replace_each w r).
  assert (Hr : no_runs r) by (intros a b x y E; apply (H (c :: a) b x y); rewrite E; reflexivity).
  destruct (blank c) eqn:E.
  - destruct inside; [rewrite (Hi eq_refl c r eq_refl) in E; discriminate E|].
    f_equal. apply IH; [exact Hr|]. intros _ x r' ->. destruct (blank x) eqn:Ex; [|reflexivity].
    exfalso. exact (H [] r' c x eq_refl E Ex).
  - cbn [app]. f_equal. apply IH; [exact Hr | discriminate].
Qed.

Lemma runs_shorter : forall w text inside, (List.length (replace_runs w inside text) <= List.length (replace_each w text))%nat.
Proof.
  induction text as [|c r IH]; intros inside; [cbn; lia|]. cbn [replace_runs].
  change (replace_each w (c :: r)) with ((if blank c then w else [c]) ++ replace_each w r).
  destruct (blank c).
  - specialize (IH true). destruct inside; rewrite ?app_length; cbn [app List.length] in *; rewrite ?app_length; lia.
  - specialize (IH false). cbn [app List.length]. lia.
Qed.
Lemma runs_strictly : forall w a x y b inside, w <> [] -> blank x = true -> blank y = true ->
  (List.length (replace_runs w inside (a ++ x :: y :: b)) < List.length (replace_each w (a ++ x :: y :: b)))%nat.
Proof.
  intros w a x y b inside Hw Hx Hy. revert inside. induction a as [|c a IH]; intro inside.
  - cbn [app replace_runs]. rewrite Hx, Hy. cbn [app].
    change (replace_each w (x :: y :: b)) with ((if blank x then w else [x]) ++ (if blank y then w else [y]) ++ replace_each w b).
    rewrite Hx, Hy, !app_length. pose proof (runs_shorter w b true) as L.
    assert (0 < List.length w)%nat by (destruct w; [contradiction | cbn; lia]).
    destruct inside; cbn [app List.length]; rewrite ?app_length; lia.
  - cbn [app replace_runs].
    change (replace_each w (c :: a ++ x :: y :: b)) with ((if blank c then w else [c]) ++ replace_each w (a ++ x :: y :: b)).
    destruct (blank c).
    + specialize (IH true). rewrite !app_length. destruct inside; cbn [List.length]; lia.
    + specialize (IH false). cbn [app List.length]. lia.
Qed.
