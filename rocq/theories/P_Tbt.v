(** * Properties: templates. *)
From Verif Require Import Base M_Charset M_Tbt S_Tbt L_Tbt L_Tbt4 L_Tbt5 L_Tbt6.

(** ** C39: literal text. *)

(** Text without an equals sign, its special characters escaped, is reproduced as it
    is: a template of nothing else compiles, and yields that text for every file. *)
Theorem C39_literal_partial : forall t, literal_ok t -> no_equals t ->
  exists l, template_processor Init (escape_literal t) = (Ok l, Init) /\
    forall ct ic c, process ct ic c l = Ok t.
Proof.
  intros t Ht He. exists [TText t]. split.
  - rewrite (literal_compiles t Ht), (equals_escaped_id t He). reflexivity.
  - reflexivity.
Qed.
Print Assumptions C39_literal_partial.
Example C39_literal_nontrivial : literal_ok (B "50% (live)? a:b & c\d") /\ no_equals (B "50% (live)? a:b & c\d").
Proof. split; [split; [discriminate|]|]; vm_compute; intuition discriminate. Qed.

(** Among other parts, too: what precedes and what follows keeps its own meaning. *)
Theorem C39_among_parts_partial : forall t s l ct ic c, literal_ok t -> no_equals t ->
  template_text s l -> begins_part s ->
  exists l', template_processor Init (escape_literal t ++ s) = (Ok l', Init) /\
    process ct ic c l' = let* r := process ct ic c l in Ok (t ++ r).
Proof.
  intros t s l ct ic c Ht He Hs Hb. exists (TText t :: l). split.
  - apply template_compiles. constructor; assumption.
  - exact (process_app ct ic c [TText t] l).
Qed.
Print Assumptions C39_among_parts_partial.
Example C39_among_parts_nontrivial : template_text (B "%A") [TAacet Artist aacet_default] /\ begins_part (B "%A").
Proof. split; [apply (template_short (B "A")); cbn [In short_forms]; tauto | exists (B "A"); left; reflexivity]. Qed.

(** The equals sign is a special character as well, but its backslash stays: every
    text that holds one comes out changed. *)
Theorem C39_equals_refuted : forall t, literal_ok t -> In 61 t ->
  exists l r, template_processor Init (escape_literal t) = (Ok l, Init) /\
    (forall ct ic c, process ct ic c l = Ok r) /\ r <> t.
Proof.
  intros t Ht H. exists [TText (equals_escaped t)], (equals_escaped t). split; [exact (literal_compiles t Ht)|].
  split; [reflexivity | exact (equals_escaped_neq t H)].
Qed.
Print Assumptions C39_equals_refuted.
Example C39_equals_nontrivial : literal_ok (B "a=b") /\ In 61 (B "a=b").
Proof. split; [split; [discriminate|]; vm_compute; intuition discriminate | vm_compute; tauto]. Qed.

(** ** C46: where the text comes from. *)

(** With a named ID3v1 encoding: the ID3v2 text if there is any, else the ID3v1 text if
    there is any, else an error. *)
Theorem C46_prefer_v2_partial : forall ct ic c k o text, a_sp o = PreferV2 ->
  v1_reads ic (a_v1 o) (v1_value c k) text ->
  process ct ic c [TAacet k o] = let* s := choose (v2_value c k) text in xform_and_encode ct ic o s.
Proof. exact source_prefer_v2. Qed.
Print Assumptions C46_prefer_v2_partial.

(** The other way round, provided the ID3v1 field, if it is there, is not blank. *)
Theorem C46_prefer_v1_partial : forall ct ic c k o text, a_sp o = PreferV1 ->
  v1_reads ic (a_v1 o) (v1_value c k) text -> (v1_value c k = [] \/ text <> []) ->
  process ct ic c [TAacet k o] = let* s := choose text (v2_value c k) in xform_and_encode ct ic o s.
Proof. exact source_prefer_v1. Qed.
Print Assumptions C46_prefer_v1_partial.

(** A file with an ID3v1 artist and no ID3v2 tag, and a conversion that copies. *)
Definition copying : iconv_t := fun _ _ _ s => Some s.
Definition v1_only_file : context :=
  mkContext (B "x.mp3") 1000 [] None (Some (mkV1t (B "Rum") (B "Pogues") (B "Sally") (B "1985") 255 [])).
Definition prefers_v2 : aacet := mkAacet PreferV2 V1Iso MakeSuffix Capitalize false [] OutUtf8.
Definition prefers_v1 : aacet := mkAacet PreferV1 V1Iso MakeSuffix Capitalize false [] OutUtf8.
Example C46_prefer_nontrivial : v1_reads copying V1Iso (v1_value v1_only_file Artist) (B "Pogues") /\
  process (mkCtype (fun c => c) (fun c => c)) copying v1_only_file [TAacet Artist prefers_v2] = Ok (B "Pogues") /\
  process (mkCtype (fun c => c) (fun c => c)) copying v1_only_file [TAacet Artist prefers_v1] = Ok (B "Pogues").
Proof.
  split; [|split; vm_compute; reflexivity].
  right. split; [discriminate|]. exists E_ISO_8859_1. split; [reflexivity | vm_compute; reflexivity].
Qed.

(** A blank ID3v1 field that is preferred hides the ID3v2 text. *)
Theorem C46_blank_refuted : forall ct ic c k o, a_sp o = PreferV1 -> v1_reads ic (a_v1 o) (v1_value c k) [] ->
  v1_value c k <> [] -> process ct ic c [TAacet k o] = Throw TemplateError.
Proof. exact source_prefer_v1_blank. Qed.
Print Assumptions C46_blank_refuted.
Definition blank_file : context :=
  mkContext (B "x.mp3") 1000 [] (Some (mkV2 None (Some (B "Pogues")) None None None None))
            (Some (mkV1t [] (B "   ") [] [] 255 [])).
Example C46_blank_nontrivial : v1_reads copying V1Iso (v1_value blank_file Artist) [] /\
  v1_value blank_file Artist <> [] /\ v2_value blank_file Artist = B "Pogues".
Proof.
  split; [|split; [discriminate | reflexivity]].
  right. split; [discriminate|]. exists E_ISO_8859_1. split; [reflexivity | vm_compute; reflexivity].
Qed.

(** With the automatic choice of encoding, which is the default, no ID3v1 text without
    a byte order mark is ever used: whatever the conversion library does, an exception
    that no optional part catches is thrown. *)
Theorem C46_automatic_refuted : forall ct ic c k o, a_v1 o = V1Auto ->
  (a_sp o = PreferV1 \/ a_sp o = PreferV2 /\ v2_value c k = []) ->
  v1_value c k <> [] -> no_bom (v1_value c k) ->
  process ct ic c [TAacet k o] = Throw InvalidArgument.
Proof. exact source_automatic. Qed.
Print Assumptions C46_automatic_refuted.
Example C46_automatic_nontrivial : a_v1 aacet_default = V1Auto /\ a_sp aacet_default = PreferV2 /\
  v2_value v1_only_file Artist = [] /\ v1_value v1_only_file Artist = B "Pogues" /\ no_bom (B "Pogues").
Proof.
  split; [reflexivity|]. split; [reflexivity|]. split; [reflexivity|]. split; [reflexivity|].
  split; [|split]; intros r E; discriminate E.
Qed.

(** The default template of the rename command, on files that have only an ID3v1 tag. *)
Theorem C46_default_template_refuted :
  exists l, template_processor Init (B "%A - %T.mp3") = (Ok l, Init) /\
    forall ct ic c, v2_value c Artist = [] -> v1_value c Artist <> [] -> no_bom (v1_value c Artist) ->
      process ct ic c l = Throw InvalidArgument.
Proof.
  exists [TAacet Artist aacet_default; TText (B " - "); TAacet Title aacet_default; TText (B ".mp3")].
  split; [vm_compute; reflexivity|]. intros ct ic c H2 H1 Hb.
  change [TAacet Artist aacet_default; TText (B " - "); TAacet Title aacet_default; TText (B ".mp3")]
    with ([TAacet Artist aacet_default] ++ [TText (B " - "); TAacet Title aacet_default; TText (B ".mp3")]).
  rewrite process_app, source_automatic; [reflexivity | reflexivity | right; split; [reflexivity | exact H2] | exact H1 | exact Hb].
Qed.
Print Assumptions C46_default_template_refuted.

(** ** C48: articles. *)

Theorem C48_there_and_back : forall ct a r, spells ct (B "The ") a -> r <> [] ->
  do_the_xform ct (a ++ r) MakeSuffix = r ++ B ", The" /\
  do_the_xform ct (do_the_xform ct (a ++ r) MakeSuffix) MakePrefix = B "The " ++ r.
Proof. intros ct a r H Hr. split; [exact (the_suffix ct a r H Hr) | exact (the_there_and_back ct a r H Hr)]. Qed.
Print Assumptions C48_there_and_back.

Theorem C48_back_and_there_partial : forall ct a r, spells ct (B ", The") a -> r <> [] ->
  do_the_xform ct (r ++ a) MakePrefix = B "The " ++ r /\
  do_the_xform ct (do_the_xform ct (r ++ a) MakePrefix) MakeSuffix = r ++ B ", The".
Proof. intros ct a r H Hr. split; [exact (the_prefix ct a r H) | exact (the_back_and_there ct a r H Hr)]. Qed.
Print Assumptions C48_back_and_there_partial.
Definition ascii_ctype : ctype :=
  mkCtype (fun c => if (97 <=? c) && (c <=? 122) then c - 32 else c)
          (fun c => if (65 <=? c) && (c <=? 90) then c + 32 else c).
Example C48_nontrivial : spells ascii_ctype (B "The ") (B "tHE ") /\ spells ascii_ctype (B ", The") (B ", THE").
Proof. split; repeat constructor. Qed.

(** Titles without the article are left alone. *)
Theorem C48_others : forall ct text,
  ((forall a r, text = a ++ r -> spells ct (B "The ") a -> r = []) -> do_the_xform ct text MakeSuffix = text) /\
  ((forall a r, text = r ++ a -> ~ spells ct (B ", The") a) -> do_the_xform ct text MakePrefix = text).
Proof. intros ct text. split; [exact (the_suffix_other ct text) | exact (the_prefix_other ct text)]. Qed.
Print Assumptions C48_others.
Example C48_others_nontrivial : forall a r, B "Theory" = a ++ r -> spells ascii_ctype (B "The ") a -> r = [].
Proof.
  intros a r E H. pose proof (spells_len _ _ _ H) as L.
  change (len (B "The ")) with 4 in L.
  destruct a as [|a1 [|a2 [|a3 [|a4 [|a5 a]]]]]; rewrite ?len_cons, ?len_nil in L; try lia.
  exfalso. injection E as <- <- <- <- _. inversion H as [|? ? ? ? _ H1]; subst. inversion H1 as [|? ? ? ? _ H2]; subst.
  inversion H2 as [|? ? ? ? _ H3]; subst. inversion H3 as [|? ? ? ? H4 _]; subst. discriminate H4.
Qed.

(** A title that is nothing but the trailing article does not come back. *)
Theorem C48_only_article_refuted : forall ct a, spells ct (B ", The") a ->
  do_the_xform ct (do_the_xform ct a MakePrefix) MakeSuffix = B "The ".
Proof. exact the_only_article. Qed.
Print Assumptions C48_only_article_refuted.

(** In a template: a title that starts with the article, under the default options. *)
Theorem C48_title : forall ct ic c x a r, v2_value c Title = a ++ x :: r -> spells ct (B "The ") a ->
  exists l, template_processor Init (B "%(title)") = (Ok l, Init) /\
    process ct ic c l = Ok (ct_upper ct x :: r ++ B ", The").
Proof.
  intros ct ic c x a r E H. exists [TAacet Title aacet_default].
  split; [vm_compute; reflexivity | exact (the_title ct ic c x a r E H)].
Qed.
Print Assumptions C48_title.
Example C48_title_nontrivial :
  v2_value (mkContext [] 0 [] (Some (mkV2 None None None (Some (B "the pogues")) None None)) None) Title
    = B "the " ++ 112 :: B "ogues" /\ spells ascii_ctype (B "The ") (B "the ").
Proof. split; [reflexivity | repeat constructor]. Qed.

(** ** C56: no template depends on those before it. *)

(** After templates that compile, any template gives what it gives alone. *)
Theorem C56_after_compiled_partial : forall ts, Forall compiles ts -> forall t,
  compile_all Init (ts ++ [t]) = map compile_alone (ts ++ [t]).
Proof. exact compile_after. Qed.
Print Assumptions C56_after_compiled_partial.
Example C56_nontrivial : Forall compiles [B "%A - %T.mp3"; B "(%(album:the=prefix))?x"].
Proof. repeat constructor; eexists; vm_compute; reflexivity. Qed.

(** After the template that is a lone percent sign, which is refused, every template
    whatsoever is refused, valid or not. *)
Theorem C56_after_refused_refuted : forall t l,
  compile_all Init [B "%"; t] <> [Throw TemplateError; Ok l].
Proof.
  intros t l E.
  change (compile_all Init [B "%"; t])
    with (Throw TemplateError :: (let '(o, st') := template_processor Repl t in o :: compile_all st' [])) in E.
  destruct (template_processor Repl t) as [o st'] eqn:K.
  apply (compile_stuck Repl t ltac:(discriminate) l). rewrite K. injection E as E. exact E.
Qed.
Print Assumptions C56_after_refused_refuted.
Example C56_refused_nontrivial : exists l, compile_alone (B "abc") = Ok l.
Proof. eexists. vm_compute. reflexivity. Qed.

(** ** C57: a template means what the manual says. *)

(** Every text made of literal text, long forms with options, short forms that no longer
    word follows, and optional parts, compiles to these parts with these settings. *)
Theorem C57_compiles_partial : forall s l, template_text s l -> template_processor Init s = (Ok l, Init).
Proof. exact template_compiles. Qed.
Print Assumptions C57_compiles_partial.
Example C57_compiles_nontrivial :
  template_text (B "%(artist:prefer-v2&v1-encoding=cp1252&the=suffix&compress)" ++ B "(" ++ (B " - " ++ B "%T") ++ B ")?")
    [TAacet Artist (mkAacet PreferV2 V1Cp1252 MakeSuffix Capitalize true [] OutUtf8);
     TSub [TText (B " - "); TAacet Title aacet_default]].
Proof.
  apply template_part_more.
  - apply (part_tag (B "artist") Artist (B "prefer-v2" ++ B "&" ++ B "v1-encoding=cp1252" ++ B "&" ++ B "the=suffix" ++ B "&" ++ B "compress")
             [OSource PreferV2; OV1enc V1Cp1252; OThe MakeSuffix; OWs true None]).
    + cbn [In tag_names]; tauto.
    + apply options_more; [apply option_tag; cbn [In tag_options]; tauto| |cbn [In]; intuition (subst; reflexivity)].
      apply options_more; [apply option_tag; cbn [In tag_options]; tauto| |cbn [In]; intuition (subst; reflexivity)].
      apply options_more; [apply option_tag_cap; cbn [In the_cap_options]; tauto| |cbn [In]; intuition (subst; reflexivity)].
      apply options_one. apply option_tag_cap; cbn [In the_cap_options]; tauto.
  - apply template_part. apply part_optional.
    apply (template_literal_more (B " - ")); [split; [discriminate|]; vm_compute; intuition discriminate | vm_compute; intuition discriminate | |].
    + apply (template_short (B "T")). cbn [In short_forms]; tauto.
    + exists (B "T"). left. reflexivity.
Qed.

(** But no text at all selects one kind of tag only, a two-digit year, upper-case
    digits, or UTF-16 or UTF-32 for ID3v1, all of which are documented. *)
Theorem C57_options_refuted : forall st s l st' x, template_processor st s = (Ok l, st') -> In x l ->
  ~ unreachable_setting x.
Proof. intros st s l st' x H. exact (proj2 (proj2 (compiled_from_init st s l st' H)) x). Qed.
Print Assumptions C57_options_refuted.
Example C57_documented_refused :
  compile_alone (B "%(artist:v1-only&v1-encoding=iso-8859-1)") = Throw TemplateError /\
  compile_alone (B "%(year:yy)") = Throw TemplateError /\
  compile_alone (B "%(size:base=hex&hex-case=U)") = Throw TemplateError.
Proof. repeat split; vm_compute; reflexivity. Qed.

(** A short form is read together with what follows it if that makes a longer word. *)
Theorem C57_short_form_refuted :
  compile_alone (B "%b" ++ B "ase") = Throw TemplateError /\
  compile_alone (B "%e" ++ B "xtension") = Throw TemplateError.
Proof. split; vm_compute; reflexivity. Qed.
Print Assumptions C57_short_form_refuted.

(** Sizes are decimal numerals; in base sixteen the result is indeterminate. *)
Theorem C57_size_partial : forall ct ic c,
  (exists l, template_processor Init (B "%(size:base=decimal)") = (Ok l, Init) /\
             process ct ic c l = process ct ic c [TSize (Some Decimal) (Some LowerCase)]) /\
  (exists l, template_processor Init (B "%(size:base=hex)") = (Ok l, Init) /\
             process ct ic c l = UB Uninitialised).
Proof.
  intros ct ic c. split; eexists; (split; [vm_compute; reflexivity | reflexivity]).
Qed.
Print Assumptions C57_size_partial.

(** ** C58: white space. *)

(** Every space and tab is replaced. *)
Theorem C58_replaced : forall text compress w, w <> [] -> do_ws_xform text compress w = replace_each w text.
Proof. exact ws_each. Qed.
Print Assumptions C58_replaced.

(** Where no two follow each other, that is what replacing runs of them gives. *)
Theorem C58_runs_partial : forall text compress w, w <> [] ->
  (forall a b x y, text = a ++ x :: y :: b -> blank x = true -> blank y = true -> False) ->
  do_ws_xform text compress w = replace_runs w false text.
Proof.
  intros text compress w Hw H. rewrite (ws_each text compress w Hw). symmetry.
  apply runs_each; [exact H | discriminate].
Qed.
Print Assumptions C58_runs_partial.
Example C58_runs_nontrivial : replace_runs (B "_") false (B "a b c") = B "a_b_c".
Proof. vm_compute. reflexivity. Qed.

(** Where two do follow each other, the manual's claim fails: neither replacing nor
    compressing merges them. *)
Theorem C58_runs_refuted : forall a x y b compress w, blank x = true -> blank y = true -> w <> [] ->
  do_ws_xform (a ++ x :: y :: b) compress w <> replace_runs w false (a ++ x :: y :: b) /\
  do_ws_xform (a ++ x :: y :: b) true [] <> replace_runs [32] false (a ++ x :: y :: b).
Proof.
  intros a x y b compress w Hx Hy Hw. rewrite (ws_each _ compress w Hw), ws_compress.
  split; intro E.
  - pose proof (runs_strictly w a x y b false Hw Hx Hy) as L. rewrite E in L. exact (PeanoNat.Nat.lt_irrefl _ L).
  - pose proof (runs_strictly [32] a x y b false ltac:(discriminate) Hx Hy) as L. rewrite E in L. exact (PeanoNat.Nat.lt_irrefl _ L).
Qed.
Print Assumptions C58_runs_refuted.

(** The manual's own example: the artist "The  Pogues" (two spaces) does not give
    "Pogues, The". *)
Theorem C58_manual_example_refuted : forall ct ic c, ct_upper ct 32 = 32 -> v2_value c Artist = B "The  Pogues" ->
  exists l, template_processor Init (B "%(artist:prefer-v2&v1-encoding=cp1252&the=suffix&compress)") = (Ok l, Init) /\
    process ct ic c l = Ok (B " Pogues, The").
Proof.
  intros ct ic c Hu H. exists [TAacet Artist (mkAacet PreferV2 V1Cp1252 MakeSuffix Capitalize true [] OutUtf8)].
  split; [vm_compute; reflexivity|].
  rewrite process_one, eval_aacet_eq. unfold source_text. rewrite v2_option_value, H.
  change (xform_and_encode ct ic (mkAacet PreferV2 V1Cp1252 MakeSuffix Capitalize true [] OutUtf8) (B "The " ++ B " Pogues")
          = Ok (B " Pogues, The")).
  unfold xform_and_encode. cbn [a_the a_cap a_compress a_replace a_out].
  rewrite the_suffix by (apply spells_refl || discriminate).
  change (B " Pogues" ++ B ", The") with (32 :: B "Pogues, The"). cbn [do_cap_xform bind]. rewrite Hu. reflexivity.
Qed.
Print Assumptions C58_manual_example_refuted.
Example C58_manual_nontrivial : ct_upper ascii_ctype 32 = 32 /\
  v2_value (mkContext [] 0 [] (Some (mkV2 None (Some (B "The  Pogues")) None None None None)) None) Artist = B "The  Pogues".
Proof. split; reflexivity. Qed.
