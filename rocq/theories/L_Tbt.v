(** * Proofs about the template scanner. *)
From Verif Require Import Base M_Charset M_Tbt S_Tbt.

(** ** Escaping. *)
Lemma is_special_special : forall c, is_special c = special c.
Proof.
  intro c. unfold is_special, special, special_chars.
  change (B "?%:&)(=\") with [63; 37; 58; 38; 41; 40; 61; 92]. cbn [existsb].
  rewrite orb_false_r, !orb_assoc. reflexivity.
Qed.

Lemma match_text_cons_plain : forall c r, special c = false ->
  match_text (c :: r) = (c :: fst (match_text r), snd (match_text r)).
Proof. intros c r H. cbn [match_text]. rewrite H. cbn [negb]. destruct (match_text r); reflexivity. Qed.

Lemma match_text_cons_esc : forall d r, special d = true ->
  match_text (92 :: d :: r) = (92 :: d :: fst (match_text r), snd (match_text r)).
Proof.
  intros d r H. cbn [match_text]. change (special 92) with true. cbn [negb].
  rewrite N.eqb_refl, H. destruct (match_text r); reflexivity.
Qed.

Lemma escape_cons : forall c t, escape_literal (c :: t) = (if is_special c then [92; c] else [c]) ++ escape_literal t.
Proof. reflexivity. Qed.

(** What may follow literal text: nothing, or one of percent and the parentheses, or an
    ampersand. *)
Definition stops (s : bytes) : Prop := match_text s = ([], s).

Lemma stops_nil : stops [].
Proof. reflexivity. Qed.
Lemma stops_cons : forall c r, special c = true -> c <> 92 -> stops (c :: r).
Proof.
  intros c r H Hn. unfold stops. cbn [match_text]. rewrite H. cbn [negb].
  destruct (N.eqb_spec c 92); [contradiction|]. reflexivity.
Qed.

Lemma match_escape : forall t s, stops s -> match_text (escape_literal t ++ s) = (escape_literal t, s).
Proof.
  induction t as [|c t IH]; intros s Hs.
  - exact Hs.
  - rewrite escape_cons, <- app_assoc, is_special_special. destruct (special c) eqn:E.
    + change ([92; c] ++ escape_literal t ++ s) with (92 :: c :: (escape_literal t ++ s)).
      rewrite match_text_cons_esc by exact E. rewrite IH by exact Hs. reflexivity.
    + change ([c] ++ escape_literal t ++ s) with (c :: (escape_literal t ++ s)).
      rewrite match_text_cons_plain by exact E. rewrite IH by exact Hs. reflexivity.
Qed.

(** What the scanner makes of escaped text: the equals sign keeps its backslash. *)
Definition equals_escaped (t : bytes) : bytes := flat_map (fun c => if c =? 61 then [92; 61] else [c]) t.

Lemma special_cases : forall c, special c = true -> unescaped c = true \/ c = 61.
Proof.
  intros c H. unfold special in H. rewrite !orb_true_iff, !N.eqb_eq in H.
  assert (D : c = 61 \/ (c = 37 \/ c = 40 \/ c = 41 \/ c = 58 \/ c = 63 \/ c = 38 \/ c = 92)) by tauto.
  destruct D as [D | D]; [right; exact D | left].
  unfold unescaped. rewrite !orb_true_iff, !N.eqb_eq. tauto.
Qed.

Lemma unescape_escape : forall t, unescape_and_copy (escape_literal t) = equals_escaped t.
Proof.
  unfold unescape_and_copy. induction t as [|c t IH]; [reflexivity|].
  rewrite escape_cons, is_special_special.
  change (equals_escaped (c :: t)) with ((if c =? 61 then [92; 61] else [c]) ++ equals_escaped t).
  destruct (special c) eqn:E.
  - change ([92; c] ++ escape_literal t) with (92 :: c :: escape_literal t).
    cbn [unescape_loop]. rewrite N.eqb_refl. cbn [unescape_loop]. rewrite IH.
    destruct (special_cases c E) as [U | ->].
    + rewrite U. destruct (N.eqb_spec c 61) as [->|_]; [discriminate U|]. reflexivity.
    + reflexivity.
  - change ([c] ++ escape_literal t) with (c :: escape_literal t).
    cbn [unescape_loop]. rewrite IH.
    destruct (N.eqb_spec c 92) as [->|_]; [discriminate E|].
    destruct (N.eqb_spec c 61) as [->|_]; [discriminate E|]. reflexivity.
Qed.

Lemma equals_escaped_id : forall t, no_equals t -> equals_escaped t = t.
Proof.
  unfold no_equals, equals_escaped. induction t as [|c t IH]; intro H; [reflexivity|].
  change (flat_map (fun c => if c =? 61 then [92; 61] else [c]) (c :: t))
    with ((if c =? 61 then [92; 61] else [c]) ++ flat_map (fun c => if c =? 61 then [92; 61] else [c]) t).
  rewrite IH by (intro K; apply H; right; exact K).
  destruct (N.eqb_spec c 61) as [->|_]; [exfalso; apply H; left; reflexivity|]. reflexivity.
Qed.

Lemma escape_nonempty : forall t, t <> [] -> exists c r, escape_literal t = c :: r.
Proof.
  intros [|c t] H; [contradiction|]. rewrite escape_cons.
  destruct (is_special c); [exists 92, (c :: escape_literal t) | exists c, (escape_literal t)]; reflexivity.
Qed.

Lemma escape_nul_free : forall t, ~ In 0 t -> ~ In 0 (escape_literal t).
Proof.
  induction t as [|c t IH]; intros H K; [exact K|].
  rewrite escape_cons in K. apply in_app_or in K. destruct K as [K | K].
  - destruct (is_special c); cbn [In] in K.
    + destruct K as [K | [K | []]]; [discriminate K | apply H; left; exact K].
    + destruct K as [K | []]. apply H; left; exact K.
  - apply (IH (fun x => H (or_intror x)) K).
Qed.

(** ** Scanning, whatever the fuel. *)
Definition scans (st : lexstate) (l : bytes) (ts : list lexed) (e : lexstate) : Prop :=
  forall f, (List.length l <= f)%nat -> lex f st l = (ts, e).

Lemma scans_nil : forall st, scans st [] [] st.
Proof. intros st [|f] _; reflexivity. Qed.

Lemma scans_step : forall st l t st' rest ts e,
  lex1 st l = Some (t, st', rest) -> (List.length rest < List.length l)%nat ->
  scans st' rest ts e -> scans st l ((st, t, st') :: ts) e.
Proof.
  intros st l t st' rest ts e H Hl K f Hf. destruct l as [|c r]; [discriminate H|].
  destruct f as [|f]; [cbn in Hf; lia|].
  cbn [lex]. rewrite H. rewrite K by (cbn [List.length] in *; lia). reflexivity.
Qed.

Lemma scans_lex : forall st l ts e, scans st l ts e -> lex (List.length l) st l = (ts, e).
Proof. intros st l ts e H. apply H. lia. Qed.

Lemma lex1_literal : forall t s, t <> [] -> stops s ->
  lex1 Init (escape_literal t ++ s) = Some (TEXT (equals_escaped t), Init, s).
Proof.
  intros t s Ht Hs. destruct (escape_nonempty t Ht) as [c [r E]].
  pose proof (match_escape t s Hs) as M. rewrite <- (unescape_escape t).
  unfold lex1. rewrite E in *. change ((c :: r) ++ s) with (c :: (r ++ s)) in *. rewrite M. reflexivity.
Qed.

Lemma scans_literal : forall t s ts e, t <> [] -> stops s -> scans Init s ts e ->
  scans Init (escape_literal t ++ s) ((Init, TEXT (equals_escaped t), Init) :: ts) e.
Proof.
  intros t s ts e Ht Hs K. eapply scans_step; [apply lex1_literal; assumption| |exact K].
  destruct (escape_nonempty t Ht) as [c [r E]]. rewrite E, app_length. cbn [List.length]. lia.
Qed.

(** One step on concrete text. *)
Lemma scans_pct : forall s ts e, scans Repl s ts e -> scans Init (37 :: s) ((Init, PCT, Repl) :: ts) e.
Proof.
  intros s ts e K. eapply scans_step; [|cbn [List.length]; apply Nat.lt_succ_diag_r|exact K].
  unfold lex1. rewrite (stops_cons 37 s) by (reflexivity || discriminate). reflexivity.
Qed.
Lemma scans_lparen : forall s ts e, scans Init s ts e -> scans Init (40 :: s) ((Init, LPAREN, Init) :: ts) e.
Proof.
  intros s ts e K. eapply scans_step; [|cbn [List.length]; apply Nat.lt_succ_diag_r|exact K].
  unfold lex1. rewrite (stops_cons 40 s) by (reflexivity || discriminate). reflexivity.
Qed.
Lemma scans_rparen_question : forall s ts e, scans Init s ts e ->
  scans Init (41 :: 63 :: s) ((Init, RPAREN, Init) :: (Init, QUESTION, Init) :: ts) e.
Proof.
  intros s ts e K.
  eapply scans_step with (rest := 63 :: s); [|cbn [List.length]; apply Nat.lt_succ_diag_r|].
  { unfold lex1. rewrite (stops_cons 41 (63 :: s)) by (reflexivity || discriminate). reflexivity. }
  eapply scans_step; [|cbn [List.length]; apply Nat.lt_succ_diag_r|exact K].
  unfold lex1. rewrite (stops_cons 63 s) by (reflexivity || discriminate). reflexivity.
Qed.

(** The tokens of a concrete word [w] of the REPLACEMENT state, before a sign [d] that
    no word holds. *)
Definition word_tokens (w : bytes) (d : N) (ts : list lexed) : Prop :=
  forall s ts' e, scans Repl (d :: s) ts' e -> scans Repl (w ++ d :: s) (ts ++ ts') e.
Definition toks (w : bytes) : list lexed := fst (lex (List.length w) Repl w).

Ltac scan1 := refine (scans_step _ _ _ _ _ _ _ _ _ _);
              [vm_compute; reflexivity | cbn [List.length]; lia | ].
(** Solves [word_tokens w d (toks w)] for concrete [w] and [d]. *)
Ltac word w :=
  let K := fresh in
  let w' := eval vm_compute in w in
  let t := eval vm_compute in (toks w) in
  change (toks w) with t; change w with w';
  intros ? ? ? K; cbn [app]; repeat (first [exact K | scan1]).
