(** * Proofs about the template parser: parts and templates. *)
From Verif Require Import Base M_Charset M_Tbt S_Tbt L_Tbt L_Tbt2.

(** ** Names. *)
Lemma long_forms_read : Forall (fun p => word_tokens (fst p) 41 (toks (fst p)) /\
   forall a b rest, parse_named (toks (fst p) ++ (a, RPAREN, b) :: rest) = PRes (snd p) rest) long_forms.
Proof.
  unfold long_forms.
  repeat (constructor; [cbn [fst snd]; split;
    [unfold word_tokens; match goal with |- forall s ts' e, _ -> scans Repl (?w ++ _) _ _ => word w end
    |match goal with |- forall a b rest, parse_named (toks ?w ++ _) = _ =>
       let t := eval vm_compute in (toks w) in change (toks w) with t end; reflexivity]|]).
  constructor.
Qed.

Definition tag_opts_term (k : aacet_kind) (os : list opt) : term := TAacet k (fold_left set_aacet os aacet_default).
Definition file_opts_term (k : file_kind) (os : list opt) : term := TFile k (fold_left set_file os fileopt_default).

Lemma tag_names_read : Forall (fun p => word_tokens (fst p) 58 (toks (fst p)) /\
   forall a b r, parse_named (toks (fst p) ++ (a, COLON, b) :: r) =
     pbind (parse_opts (S (List.length r)) ForAacet [] r) (fun os rest => PRes (tag_opts_term (snd p) os) rest)) tag_names.
Proof.
  unfold tag_names.
  repeat (constructor; [cbn [fst snd]; split;
    [unfold word_tokens; match goal with |- forall s ts' e, _ -> scans Repl (?w ++ _) _ _ => word w end
    |match goal with |- forall a b rest, parse_named (toks ?w ++ _) = _ =>
       let t := eval vm_compute in (toks w) in change (toks w) with t end; reflexivity]|]).
  constructor.
Qed.

Lemma file_names_read : Forall (fun p => word_tokens (fst p) 58 (toks (fst p)) /\
   forall a b r, parse_named (toks (fst p) ++ (a, COLON, b) :: r) =
     pbind (parse_opts (S (List.length r)) ForFile [] r) (fun os rest => PRes (file_opts_term (snd p) os) rest)) file_names.
Proof.
  unfold file_names.
  repeat (constructor; [cbn [fst snd]; split;
    [unfold word_tokens; match goal with |- forall s ts' e, _ -> scans Repl (?w ++ _) _ _ => word w end
    |match goal with |- forall a b rest, parse_named (toks ?w ++ _) = _ =>
       let t := eval vm_compute in (toks w) in change (toks w) with t end; reflexivity]|]).
  constructor.
Qed.

Lemma md5_read : word_tokens (B "md5") 58 (toks (B "md5")) /\
   forall a b r, parse_named (toks (B "md5") ++ (a, COLON, b) :: r) =
     pbind (parse_opts (S (List.length r)) ForNumber [] r)
           (fun os rest => let '(b, c) := fold_left set_number os (None, None) in PRes (TMd5 b c) rest).
Proof. split; [unfold word_tokens; word (B "md5") | reflexivity]. Qed.
Lemma size_read : word_tokens (B "size") 58 (toks (B "size")) /\
   forall a b r, parse_named (toks (B "size") ++ (a, COLON, b) :: r) =
     pbind (parse_opts (S (List.length r)) ForNumber [] r)
           (fun os rest => let '(b, c) := fold_left set_number os (None, None) in PRes (TSize b c) rest).
Proof. split; [unfold word_tokens; word (B "size") | reflexivity]. Qed.

(** ** Parts. *)
Definition starter (l : list lexed) : Prop :=
  exists a t b r, l = (a, t, b) :: r /\ (t = PCT \/ t = LPAREN \/ exists s, t = TEXT s).

(** What the parser does after a term. *)
Definition more (f : nat) (x : term) (rest : list lexed) : presult (list term) :=
  match rest with
  | (_, (TEXT _ | PCT | LPAREN), _) :: _ => pbind (parse_terms f rest) (fun xs rest' => PRes (x :: xs) rest')
  | _ => PRes [x] rest
  end.

Lemma more_starter : forall f x rest, starter rest ->
  more f x rest = pbind (parse_terms f rest) (fun xs rest' => PRes (x :: xs) rest').
Proof.
  intros f x rest [a [t [b [r [-> [-> | [-> | [s ->]]]]]]]]; reflexivity.
Qed.
Definition closers (l : list lexed) : Prop := l = [] \/ exists a b r, l = (a, RPAREN, b) :: r.
Lemma more_closers : forall f x rest, closers rest -> more f x rest = PRes [x] rest.
Proof. intros f x rest [-> | [a [b [r ->]]]]; reflexivity. Qed.

Lemma parse_text : forall f a b t rest, parse_terms (S f) ((a, TEXT t, b) :: rest) = more f (TText t) rest.
Proof. reflexivity. Qed.
Lemma parse_replacement : forall f a b c d rest,
  parse_terms (S f) ((a, PCT, b) :: (c, LPAREN, d) :: rest) = pbind (parse_named rest) (more f).
Proof. reflexivity. Qed.
Lemma parse_sub : forall f a b rest, parse_terms (S f) ((a, LPAREN, b) :: rest) =
  pbind (parse_terms f rest) (fun xs rest =>
            match rest with
            | (_, RPAREN, _) :: (_, QUESTION, _) :: rest' => more f (TSub xs) rest'
            | (_, RPAREN, _) :: rest' => PErr rest'
            | _ => PErr rest
            end).
Proof. reflexivity. Qed.

Definition reads_part (s : bytes) (ts : list lexed) (x : term) : Prop :=
  (forall tail ts' e, scans Init tail ts' e -> scans Init (s ++ tail) (ts ++ ts') e) /\
  starter ts /\
  (forall f rest, (List.length ts <= f)%nat -> parse_terms (S f) (ts ++ rest) = more f x rest).

Definition closes (tail : bytes) : Prop := tail = [] \/ exists r, tail = 41 :: r.
Definition reads_template (s : bytes) (ts : list lexed) (l : list term) : Prop :=
  (forall tail ts' e, closes tail -> scans Init tail ts' e -> scans Init (s ++ tail) (ts ++ ts') e) /\
  starter ts /\
  (forall f rest, closers rest -> (List.length ts < f)%nat -> parse_terms f (ts ++ rest) = PRes l rest).

Lemma starter_app : forall ts rest, starter ts -> starter (ts ++ rest).
Proof. intros ts rest [a [t [b [r [-> H]]]]]. exists a, t, b, (r ++ rest). split; [reflexivity | exact H]. Qed.

(** A replacement with options. *)
Lemma opts_part : forall (name : bytes) so os k x (mk : list opt -> list lexed -> presult term),
  word_tokens name 58 (toks name) ->
  (forall a b r, parse_named (toks name ++ (a, COLON, b) :: r) = pbind (parse_opts (S (List.length r)) k [] r) mk) ->
  options_text k so os -> (forall rest, mk os rest = PRes x rest) ->
  exists ts, reads_part (B "%(" ++ name ++ B ":" ++ so ++ B ")") ts x.
Proof.
  intros name so os k x mk W P O M. destruct (options_read k so os O) as [to [Wo Po]].
  exists ((Init, PCT, Repl) :: (Repl, LPAREN, Repl) :: toks name ++ (Repl, COLON, Repl) :: to ++ [(Repl, RPAREN, Init)]).
  split; [|split].
  - intros tail ts' e K. rewrite <- !app_assoc.
    change (B "%(" ++ name ++ B ":" ++ so ++ B ")" ++ tail) with (37 :: 40 :: (name ++ 58 :: (so ++ 41 :: tail))).
    rewrite <- !app_comm_cons. rewrite <- app_assoc. rewrite <- app_comm_cons. rewrite <- app_assoc.
    apply scans_pct, scans_open, W, scans_colon, Wo, scans_close, K.
  - exists Init, PCT, Repl. eexists. split; [reflexivity | left; reflexivity].
  - intros f rest Hf. rewrite <- !app_comm_cons, <- app_assoc, <- app_comm_cons, <- app_assoc.
    rewrite parse_replacement, P. change ([(Repl, RPAREN, Init)] ++ rest) with ((Repl, RPAREN, Init) :: rest).
    destruct (Po Repl Init rest) as [_ Po']. rewrite Po'.
    + cbn [pbind app]. rewrite M. reflexivity.
    + rewrite app_length. lia.
    + intros x0 y [].
Qed.

Lemma long_part : forall s x, In (s, x) long_forms -> exists ts, reads_part (B "%(" ++ s ++ B ")") ts x.
Proof.
  intros s x H. pose proof (proj1 (Forall_forall _ _) long_forms_read _ H) as [W P]. cbn [fst snd] in W, P.
  exists ((Init, PCT, Repl) :: (Repl, LPAREN, Repl) :: toks s ++ [(Repl, RPAREN, Init)]).
  split; [|split].
  - intros tail ts' e K. rewrite <- !app_assoc.
    change (B "%(" ++ s ++ B ")" ++ tail) with (37 :: 40 :: (s ++ 41 :: tail)).
    rewrite <- !app_comm_cons. rewrite <- app_assoc.
    apply scans_pct, scans_open, W, scans_close, K.
  - exists Init, PCT, Repl. eexists. split; [reflexivity | left; reflexivity].
  - intros f rest Hf. rewrite <- !app_comm_cons, <- app_assoc.
    rewrite parse_replacement. change ([(Repl, RPAREN, Init)] ++ rest) with ((Repl, RPAREN, Init) :: rest).
    rewrite P. reflexivity.
Qed.

Lemma sub_part : forall s l ts, reads_template s ts l -> exists ts', reads_part (B "(" ++ s ++ B ")?") ts' (TSub l).
Proof.
  intros s l ts [W [S P]].
  exists ((Init, LPAREN, Init) :: ts ++ [(Init, RPAREN, Init); (Init, QUESTION, Init)]). split; [|split].
  - intros tail ts' e K. rewrite <- !app_assoc.
    change (B "(" ++ s ++ B ")?" ++ tail) with (40 :: (s ++ 41 :: 63 :: tail)).
    rewrite <- !app_comm_cons. rewrite <- app_assoc.
    apply scans_lparen. apply W; [right; eexists; reflexivity|].
    apply scans_rparen_question. exact K.
  - exists Init, LPAREN, Init. eexists. split; [reflexivity | right; left; reflexivity].
  - intros f rest Hf. rewrite <- !app_comm_cons, <- app_assoc. rewrite parse_sub.
    change ([(Init, RPAREN, Init); (Init, QUESTION, Init)] ++ rest)
      with ((Init, RPAREN, Init) :: (Init, QUESTION, Init) :: rest).
    rewrite P.
    + reflexivity.
    + right. exists Init, Init. eexists. reflexivity.
    + cbn [List.length] in Hf. rewrite app_length in Hf. cbn [List.length] in Hf. lia.
Qed.

(** ** Short forms. *)
Lemma after_prefix_app : forall w r, after_prefix w (w ++ r) = Some r.
Proof. induction w as [|c w IH]; intro r; [reflexivity|]. cbn [after_prefix app]. rewrite N.eqb_refl. apply IH. Qed.
Lemma after_prefix_starts : forall w s r, after_prefix w s = Some r -> s = w ++ r.
Proof.
  induction w as [|c w IH]; intros s r H; [cbn in H; injection H as ->; reflexivity|].
  destruct s as [|d s]; [discriminate H|]. cbn [after_prefix] in H.
  destruct (N.eqb_spec c d) as [->|_]; [|discriminate H]. rewrite (IH s r H). reflexivity.
Qed.
Lemma not_starts : forall w s, ~ starts_with w s -> after_prefix w s = None.
Proof.
  intros w s H. destruct (after_prefix w s) as [r|] eqn:E; [|reflexivity].
  exfalso. apply H. exists r. apply after_prefix_starts. exact E.
Qed.

(** A word without a closing parenthesis ends before one. *)
Lemma starts_before : forall w a r, ~ In 41 w -> starts_with w (a ++ 41 :: r) -> starts_with w a.
Proof.
  induction w as [|c w IH]; intros a r H [q E]; [exists a; reflexivity|].
  destruct a as [|d a].
  - exfalso. cbn [app] in E. apply H. left. apply (f_equal (hd 0)) in E. cbn [hd app] in E. symmetry. exact E.
  - cbn [app] in E. injection E as -> E.
    destruct (IH a r (fun K => H (or_intror K)) (ex_intro _ q E)) as [q' ->]. exists q'. reflexivity.
Qed.
Lemma longer_no_paren : forall w, In w longer_words -> ~ In 41 w.
Proof.
  assert (F : forallb (fun w => negb (existsb (N.eqb 41) w)) longer_words = true) by (vm_compute; reflexivity).
  intros w H K. rewrite forallb_forall in F. specialize (F w H).
  assert (E : existsb (N.eqb 41) w = true) by (apply existsb_exists; exists 41; split; [exact K | apply N.eqb_refl]).
  rewrite E in F. discriminate F.
Qed.

Definition short_clear (w rest : bytes) : Prop := forall l, In l longer_words -> after_prefix l (w ++ rest) = None.

Lemma short_ok_clear : forall w s tail, closes tail -> short_ok w s -> short_clear w (s ++ tail).
Proof.
  intros w s tail C H l Hl. apply not_starts. intro K. destruct C as [-> | [r ->]].
  - rewrite app_nil_r in K. exact (H l Hl K).
  - rewrite app_assoc in K. apply (H l Hl). eapply starts_before; [apply longer_no_paren; exact Hl | exact K].
Qed.
Lemma short_ok_nil : forall w x, In (w, x) short_forms -> short_ok w [].
Proof.
  intros w x H l Hl [r E]. rewrite app_nil_r in E.
  assert (L1 : List.length w = 1%nat).
  { assert (F : forallb (fun p => Nat.eqb (List.length (fst p)) 1) short_forms = true) by (vm_compute; reflexivity).
    rewrite forallb_forall in F. specialize (F _ H). apply Nat.eqb_eq in F. exact F. }
  assert (L2 : (2 <= List.length l)%nat).
  { assert (F : forallb (fun p => Nat.leb 2 (List.length p)) longer_words = true) by (vm_compute; reflexivity).
    rewrite forallb_forall in F. specialize (F _ Hl). apply Nat.leb_le in F. exact F. }
  apply (f_equal (@List.length N)) in E. rewrite app_length in E. lia.
Qed.

Lemma longest_none : forall ws s, Forall (fun p => after_prefix (fst p) s = None) ws -> longest ws s = None.
Proof.
  induction ws as [|[w x] ws IH]; intros s H; [reflexivity|]. inversion H as [|? ? Hp Hf]; subst.
  cbn [longest]. cbn [fst] in Hp. rewrite Hp. apply IH. exact Hf.
Qed.
Lemma longest_one : forall ws1 ws2 w x s rest,
  Forall (fun p => after_prefix (fst p) s = None) ws1 ->
  Forall (fun p => after_prefix (fst p) s = None) ws2 ->
  after_prefix w s = Some rest -> longest (ws1 ++ (w, x) :: ws2) s = Some (w, x, rest).
Proof.
  induction ws1 as [|[w' x'] ws1 IH]; intros ws2 w x s rest H1 H2 H.
  - cbn [app longest]. rewrite H, longest_none by exact H2. reflexivity.
  - inversion H1 as [|? ? Hp Hf]; subst. cbn [app longest]. cbn [fst] in Hp. rewrite Hp. apply IH; assumption.
Qed.

(** Each short form is one token, unless a longer word stands there. *)
Definition short_token (p : bytes * term) (t : token) : Prop :=
  is_abbrev t = true /\ plain_term t = Some (snd p) /\
  forall s, short_clear (fst p) s -> lex1 Repl (fst p ++ s) = Some (t, Init, s).

Ltac short_words H :=
  repeat (constructor; [cbn [fst]; first [reflexivity | apply H; unfold longer_words; cbn [In]; tauto]|]); constructor.
Ltac short_case n :=
  split; [reflexivity|split; [reflexivity|]]; cbn [fst snd];
  let s := fresh "s" in let H := fresh "H" in let E := fresh "E" in
  intros s H;
  match goal with |- lex1 Repl (?w ++ s) = Some (?t, _, _) =>
    assert (E : longest replacement_words (w ++ s) = Some (w, (t, Init), s));
    [ change replacement_words with (firstn n replacement_words ++ (w, (t, Init)) :: skipn (S n) replacement_words);
      apply longest_one; [cbn [firstn replacement_words] | cbn [skipn replacement_words] | apply after_prefix_app];
      short_words H
    | let w' := eval vm_compute in w in change w with w' in E |- *; cbn [app] in E |- *; unfold lex1; rewrite E; reflexivity ] end.

Lemma short_forms_read : Forall (fun p => exists t, short_token p t) short_forms.
Proof.
  unfold short_forms.
  constructor; [exists ALBUM_ABBREV; short_case 28%nat|].
  constructor; [exists ARTIST_ABBREV; short_case 29%nat|].
  constructor; [exists CONTENT_TYPE_ABBREV; short_case 31%nat|].
  constructor; [exists TITLE_ABBREV; short_case 36%nat|].
  constructor; [exists ENCODED_BY_ABBREV; short_case 32%nat|].
  constructor; [exists YEAR_ABBREV; short_case 37%nat|].
  constructor; [exists BASENAME_ABBREV; short_case 30%nat|].
  constructor; [exists EXTENSION_ABBREV; short_case 33%nat|].
  constructor; [exists MD5_ABBREV; short_case 34%nat|].
  constructor; [exists SIZE_ABBREV; short_case 35%nat|].
  constructor.
Qed.
