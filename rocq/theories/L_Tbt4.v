(** * Proofs about templates: every documented template compiles to what it says. *)
From Verif Require Import Base M_Charset M_Tbt S_Tbt L_Tbt L_Tbt2 L_Tbt3.

Scheme part_text_mind := Induction for part_text Sort Prop
  with template_text_mind := Induction for template_text Sort Prop.
Combined Scheme texts_mind from part_text_mind, template_text_mind.

Lemma closes_stops : forall t, closes t -> stops t.
Proof. intros t [-> | [r ->]]; [apply stops_nil | apply stops_cons; [reflexivity | discriminate]]. Qed.
Lemma begins_stops : forall s t, begins_part s -> stops (s ++ t).
Proof.
  intros s t [r [-> | ->]]; cbn [app]; apply stops_cons; reflexivity || discriminate.
Qed.

Lemma short_scan : forall w x t s ts e, short_token (w, x) t -> short_clear w s -> scans Init s ts e ->
  scans Init (B "%" ++ w ++ s) ((Init, PCT, Repl) :: (Repl, t, Init) :: ts) e.
Proof.
  intros w x t s ts e [_ [_ H]] C K. change (B "%" ++ w ++ s) with (37 :: (w ++ s)).
  apply scans_pct. cbn [fst] in H.
  refine (scans_step _ _ _ _ s _ _ (H s C) _ K).
  destruct w as [|c w]; [|rewrite app_length; cbn [List.length]; lia].
  specialize (H [] ). exfalso. assert (D : short_clear [] []).
  { intros l Hl. destruct l as [|c l]; [|reflexivity].
    assert (F : forallb (fun w => negb (bytes_eqb w [])) longer_words = true) by (vm_compute; reflexivity).
    rewrite forallb_forall in F. specialize (F _ Hl). discriminate F. }
  specialize (H D). discriminate H.
Qed.

Lemma short_parse : forall w x t f rest, short_token (w, x) t ->
  parse_terms (S f) ((Init, PCT, Repl) :: (Repl, t, Init) :: rest) = more f x rest.
Proof.
  intros w x t f rest [A [P _]]. cbn [snd] in P. destruct t; try discriminate A; injection P as <-; reflexivity.
Qed.

Theorem texts_read :
  (forall s x, part_text s x -> exists ts, reads_part s ts x) /\
  (forall s l, template_text s l -> exists ts, reads_template s ts l).
Proof.
  apply texts_mind.
  - intros s x H. apply long_part. exact H.
  - intros s k so os H O.
    pose proof (proj1 (Forall_forall _ _) tag_names_read _ H) as [W P]. cbn [fst snd] in W, P.
    eapply opts_part; [exact W | exact P | exact O |].
    intro rest. unfold tag_opts_term. rewrite fold_aacet by (eapply options_unique; exact O). reflexivity.
  - intros s k so os H O.
    pose proof (proj1 (Forall_forall _ _) file_names_read _ H) as [W P]. cbn [fst snd] in W, P.
    eapply opts_part; [exact W | exact P | exact O |].
    intro rest. unfold file_opts_term. rewrite fold_file by (eapply options_unique; exact O). reflexivity.
  - intros so os O. destruct md5_read as [W P].
    change (B "%(md5:" ++ so ++ B ")") with (B "%(" ++ B "md5" ++ B ":" ++ so ++ B ")").
    eapply opts_part; [exact W | exact P | exact O |].
    intro rest. cbv beta. rewrite (fold_number _ _ O). reflexivity.
  - intros so os O. destruct size_read as [W P].
    change (B "%(size:" ++ so ++ B ")") with (B "%(" ++ B "size" ++ B ":" ++ so ++ B ")").
    eapply opts_part; [exact W | exact P | exact O |].
    intro rest. cbv beta. rewrite (fold_number _ _ O). reflexivity.
  - intros s l _ [ts R]. eapply sub_part. exact R.
  - intros t [Ht _] He. exists [(Init, TEXT t, Init)]. split; [|split].
    + intros tail ts' e C K. rewrite <- (equals_escaped_id t He) at 2. cbn [app].
      apply scans_literal; [exact Ht | apply closes_stops; exact C | exact K].
    + exists Init, (TEXT t), Init, []. split; [reflexivity | right; right; eexists; reflexivity].
    + intros f rest C Hf. destruct f as [|f]; [cbn in Hf; lia|]. cbn [app]. rewrite parse_text. apply more_closers. exact C.
  - intros t s l [Ht _] He _ [ts [W [S P]]] Hb. exists ((Init, TEXT t, Init) :: ts). split; [|split].
    + intros tail ts' e C K. rewrite <- app_assoc, <- app_comm_cons. rewrite <- (equals_escaped_id t He) at 2.
      apply scans_literal; [exact Ht | apply begins_stops; exact Hb | apply W; assumption].
    + exists Init, (TEXT t), Init, ts. split; [reflexivity | right; right; eexists; reflexivity].
    + intros f rest C Hf. cbn [List.length] in Hf. destruct f as [|f]; [lia|].
      rewrite <- app_comm_cons, parse_text, more_starter by (apply starter_app; exact S).
      rewrite P by (assumption || lia). reflexivity.
  - intros s x _ [ts [W [S P]]]. exists ts. split; [|split].
    + intros tail ts' e C K. apply W. exact K.
    + exact S.
    + intros f rest C Hf. destruct f as [|f]; [lia|]. rewrite P by lia. apply more_closers. exact C.
  - intros s x s' l _ [ts [W [S P]]] _ [ts' [W' [S' P']]]. exists (ts ++ ts'). split; [|split].
    + intros tail ts'' e C K. rewrite <- !app_assoc. apply W. apply W'; assumption.
    + apply starter_app. exact S.
    + intros f rest C Hf. rewrite app_length in Hf. destruct f as [|f]; [lia|].
      rewrite <- app_assoc, P by lia. rewrite more_starter by (apply starter_app; exact S').
      rewrite P'; [reflexivity | exact C |].
      destruct S as [a [t [b [r [-> _]]]]]. cbn [List.length] in Hf. lia.
  - intros w x H. pose proof (proj1 (Forall_forall _ _) short_forms_read _ H) as [t T].
    exists [(Init, PCT, Repl); (Repl, t, Init)]. split; [|split].
    + intros tail ts' e C K. rewrite <- app_assoc. cbn [app].
      refine (short_scan w x t tail _ _ T _ K).
      rewrite <- (app_nil_l tail). apply short_ok_clear; [exact C | eapply short_ok_nil; exact H].
    + exists Init, PCT, Repl. eexists. split; [reflexivity | left; reflexivity].
    + intros f rest C Hf. destruct f as [|f]; [cbn in Hf; lia|]. cbn [app].
      etransitivity; [apply (short_parse w x t f rest T)|]. apply more_closers. exact C.
  - intros w x s l H _ [ts [W [S P]]] Ho.
    pose proof (proj1 (Forall_forall _ _) short_forms_read _ H) as [t T].
    exists ((Init, PCT, Repl) :: (Repl, t, Init) :: ts). split; [|split].
    + intros tail ts' e C K. rewrite <- !app_assoc, <- !app_comm_cons.
      refine (short_scan w x t (s ++ tail) _ _ T _ _).
      * apply short_ok_clear; assumption.
      * apply W; assumption.
    + exists Init, PCT, Repl. eexists. split; [reflexivity | left; reflexivity].
    + intros f rest C Hf. cbn [List.length] in Hf. destruct f as [|f]; [lia|]. rewrite <- !app_comm_cons.
      etransitivity; [apply (short_parse w x t f _ T)|]. rewrite more_starter by (apply starter_app; exact S).
      rewrite P by (assumption || lia). reflexivity.
Qed.

(** ** No NUL. *)
Definition nul_free (s : bytes) : bool := negb (existsb (N.eqb 0) s).
Lemma nul_free_spec : forall s, nul_free s = true <-> ~ In 0 s.
Proof.
  intro s. unfold nul_free. rewrite negb_true_iff. split.
  - intros H K. assert (E : existsb (N.eqb 0) s = true) by (apply existsb_exists; exists 0; split; [exact K | reflexivity]).
    rewrite E in H. discriminate H.
  - intro H. destruct (existsb (N.eqb 0) s) eqn:E; [|reflexivity].
    apply existsb_exists in E. destruct E as [x [Hx E]]. apply N.eqb_eq in E. subst. contradiction.
Qed.
Lemma nul_free_app : forall s t, nul_free s = true -> nul_free t = true -> nul_free (s ++ t) = true.
Proof.
  intros s t. unfold nul_free. rewrite existsb_app, !negb_true_iff, orb_false_iff. auto.
Qed.
Lemma nul_free_in : forall A (x : A) s l, In (s, x) l -> forallb (fun p => nul_free (fst p)) l = true -> nul_free s = true.
Proof. intros A x s l H F. rewrite forallb_forall in F. exact (F _ H). Qed.
Lemma nul_free_escape : forall t, literal_ok t -> nul_free (escape_literal t) = true.
Proof. intros t [_ H]. apply nul_free_spec. apply escape_nul_free. exact H. Qed.

Lemma option_nul_free : forall k s o, option_text k s o -> nul_free s = true.
Proof.
  intros k s o H. destruct H.
  - eapply nul_free_in; [eassumption | reflexivity].
  - eapply nul_free_in; [eassumption | reflexivity].
  - eapply nul_free_in; [eassumption | reflexivity].
  - eapply nul_free_in; [eassumption | reflexivity].
  - apply nul_free_app; [reflexivity | apply nul_free_escape; assumption].
  - apply nul_free_app; [reflexivity | apply nul_free_escape; assumption].
Qed.
Lemma options_nul_free : forall k s o, options_text k s o -> nul_free s = true.
Proof.
  intros k s o H. induction H.
  - eapply option_nul_free; eassumption.
  - apply nul_free_app; [eapply option_nul_free; eassumption|]. apply nul_free_app; [reflexivity | assumption].
Qed.
Lemma texts_nul_free : (forall s x, part_text s x -> nul_free s = true) /\
  (forall s l, template_text s l -> nul_free s = true).
Proof.
  apply texts_mind; intros;
    repeat (apply nul_free_app);
    try reflexivity; try assumption; try (eapply options_nul_free; eassumption);
    try (apply nul_free_escape; assumption);
    try (eapply nul_free_in; [eassumption | reflexivity]).
Qed.

Lemma c_str_id : forall s, ~ In 0 s -> c_str s = s.
Proof.
  induction s as [|c s IH]; intro H; [reflexivity|]. cbn [c_str].
  destruct (N.eqb_spec c 0) as [->|_]; [exfalso; apply H; left; reflexivity|].
  rewrite IH; [reflexivity|]. intro K. apply H. right. exact K.
Qed.

(** Every template compiles to its parts, and leaves the scanner as it found it. *)
Theorem template_compiles : forall s l, template_text s l -> template_processor Init s = (Ok l, Init).
Proof.
  intros s l H. destruct (proj2 texts_read s l H) as [ts [W [S P]]].
  unfold template_processor.
  rewrite c_str_id by (apply nul_free_spec; exact (proj2 texts_nul_free s l H)).
  specialize (W [] [] Init (or_introl eq_refl) (scans_nil Init)). rewrite !app_nil_r in W.
  rewrite (scans_lex _ _ _ _ W). specialize (P (Datatypes.S (List.length ts)) [] (or_introl eq_refl) ltac:(lia)).
  rewrite app_nil_r in P. rewrite P. reflexivity.
Qed.
