(** * Theorems: languages (C73). *)
From Verif Require Import Base M_Charset M_Lang S_Lang L_Lang.

(** A language that is printed is read back; its text is three letters. *)
Theorem C73_write_read : forall l s, write_language l = Ok s -> read_language s = Ok l /\ len s = 3.
Proof. exact lang_write_read_l. Qed.
Print Assumptions C73_write_read.

(** A text is read as a language exactly if its first word is a code of the
    standard, five of them in capitals; it is then the language printed so. *)
Theorem C73_read_exact : forall text l, read_language text = Ok l <->
  exists c, standard_code c /\ first_word text (spelling c) /\ write_language l = Ok (spelling c).
Proof. exact lang_read_exact_l. Qed.
Print Assumptions C73_read_exact.

(** Any other text is refused. *)
Theorem C73_read_total : forall text, (exists l, read_language text = Ok l) \/ read_language text = Throw OutOfRange.
Proof. exact lang_read_total_l. Qed.
Print Assumptions C73_read_total.

(** The code put in a comment is the text of the language. *)
Theorem C73_code_in_comment : forall e l s, write_language l = Ok s ->
  language_to_iso_639_2 e l = Ok s /\ comment_language e l = Ok s.
Proof. exact lang_code_l. Qed.
Print Assumptions C73_code_in_comment.

Example C73_nontrivial :
  write_language (Lang (B "eng")) = Ok (B "eng") /\ standard_code (B "eng") /\ spelling (B "eng") = B "eng" /\
  read_language (B "  eng, or so") = Throw OutOfRange /\ read_language (B "  eng or so") = Ok (Lang (B "eng")) /\
  first_word (B " eng or") (B "eng") /\ comment_language (mkLenv None None None) (Lang (B "eng")) = Ok (B "eng").
Proof.
  repeat apply conj; try (vm_compute; reflexivity).
  - apply in_b_iff. vm_compute. reflexivity.
  - exists [32], (B " or"). repeat apply conj; try reflexivity.
    + repeat constructor.
    + repeat constructor; intros [H|[H1 H2]]; vm_compute in *; congruence.
    + right. do 2 eexists. split; [reflexivity|left; reflexivity].
    + discriminate.
Qed.

(** Full statement: every code of the standard is read.  It is false of the five
    that the program spells in capitals. *)
Theorem C73_standard_codes_refuted : forall text c, In c capitalised -> first_word text c ->
  standard_code c /\ read_language text = Throw OutOfRange.
Proof.
  intros text c Hc Hw. split; [|exact (lang_capital_l text c Hc Hw)].
  apply in_b_iff. assert (H : forallb (fun c => in_b c (map fst iso_639)) capitalised = true) by (vm_compute; reflexivity).
  rewrite forallb_forall in H. exact (H c Hc).
Qed.
Print Assumptions C73_standard_codes_refuted.

Example C73_standard_codes_nontrivial :
  In (B "asm") capitalised /\ read_language (B "asm") = Throw OutOfRange /\ read_language (B "ASM") = Ok (Lang (B "ASM")).
Proof. vm_compute. repeat apply conj; auto. Qed.

(** The language of the locale is named by the first of LANGUAGE, LC_ALL and LANG
    with at least two characters; if its first two are a code of the standard, the
    comment gets a three-letter code of that language. *)
Theorem C73_locale_known_partial : forall e s c3,
  Forall env_value [env_language e; env_lc_all e; env_lang e] ->
  locale_is [env_language e; env_lc_all e; env_lang e] s -> same_language (takeN 2 s) c3 ->
  exists c, same_language (takeN 2 s) c /\ comment_language e FromLocale = Ok (spelling c).
Proof. exact locale_known_l. Qed.
Print Assumptions C73_locale_known_partial.

Example C73_locale_known_nontrivial :
  let e := mkLenv None (Some (B "C")) (Some (B "de_CH.UTF-8")) in
  Forall env_value [env_language e; env_lc_all e; env_lang e] /\
  locale_is [env_language e; env_lc_all e; env_lang e] (B "de_CH.UTF-8") /\
  same_language (takeN 2 (B "de_CH.UTF-8")) (B "ger") /\ comment_language e FromLocale = Ok (B "deu").
Proof.
  cbv zeta. repeat apply conj.
  - repeat constructor; intros s Hs; try discriminate; injection Hs as <-; vm_compute; intuition discriminate.
  - exists [None; Some (B "C")], []. repeat apply conj; [reflexivity| |vm_compute; discriminate].
    repeat constructor; intros s Hs; try discriminate. injection Hs as <-. reflexivity.
  - assert (H : existsb (fun q => bytes_eqb (fst q) (B "ger") && bytes_eqb (snd q) (B "de")) iso_639 = true) by (vm_compute; reflexivity).
    apply existsb_exists in H. destruct H as ([a b] & Hin & E). cbn [fst snd] in E. apply andb_true_iff in E.
    destruct E as [Ea Eb]. apply bytes_eqb_eq in Ea, Eb. subst. exact Hin.
  - discriminate.
  - vm_compute. reflexivity.
Qed.

(** If they are not, as in the locale POSIX, the language is "from the locale"
    again and no comment can be made. *)
Theorem C73_locale_unknown_refuted : forall e s,
  Forall env_value [env_language e; env_lc_all e; env_lang e] ->
  locale_is [env_language e; env_lc_all e; env_lang e] s -> (forall c3, ~ same_language (takeN 2 s) c3) ->
  language_from_locale e = Ok FromLocale /\ comment_language e FromLocale = Throw LogicError.
Proof. exact locale_unknown_l. Qed.
Print Assumptions C73_locale_unknown_refuted.

Example C73_locale_unknown_nontrivial :
  (forall c3, ~ same_language (takeN 2 (B "POSIX")) c3) /\
  comment_language (mkLenv None None (Some (B "POSIX"))) FromLocale = Throw LogicError.
Proof.
  split; [|vm_compute; reflexivity]. intros c3 [H _]. apply (in_map snd) in H. cbn [snd] in H.
  apply in_b_iff in H. vm_compute in H. discriminate.
Qed.

(** With none of the three set, the failure is another one. *)
Theorem C73_locale_unset : forall e,
  Forall env_value [env_language e; env_lc_all e; env_lang e] ->
  Forall too_short [env_language e; env_lc_all e; env_lang e] ->
  comment_language e FromLocale = Throw RuntimeError.
Proof. exact locale_unset_l. Qed.
Print Assumptions C73_locale_unset.

Example C73_locale_unset_nontrivial :
  Forall too_short [None; Some (B "C"); Some []] /\ comment_language (mkLenv None (Some (B "C")) (Some [])) FromLocale = Throw RuntimeError.
Proof. split; [|vm_compute; reflexivity]. repeat constructor; intros s Hs; try discriminate; injection Hs as <-; reflexivity. Qed.

(** Only the first two letters count: a locale named by a three-letter code gets
    the language whose two-letter code it begins with. *)
Theorem C73_locale_prefix_refuted : forall e e' s s',
  Forall env_value [env_language e; env_lc_all e; env_lang e] ->
  Forall env_value [env_language e'; env_lc_all e'; env_lang e'] ->
  locale_is [env_language e; env_lc_all e; env_lang e] s -> locale_is [env_language e'; env_lc_all e'; env_lang e'] s' ->
  takeN 2 s = takeN 2 s' ->
  comment_language e FromLocale = comment_language e' FromLocale.
Proof. exact locale_prefix_l. Qed.
Print Assumptions C73_locale_prefix_refuted.

Example C73_locale_prefix_nontrivial :
  takeN 2 (B "fil_PH") = takeN 2 (B "fi_FI") /\
  comment_language (mkLenv None None (Some (B "fil_PH"))) FromLocale = Ok (B "fin") /\
  read_language (B "fil") = Ok (Lang (B "fil")).
Proof. vm_compute. auto. Qed.
