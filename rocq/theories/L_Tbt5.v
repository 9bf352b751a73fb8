(** * Proofs about templates: what any template that compiles leaves behind, and what
    no template can say. *)
From Verif Require Import Base M_Charset M_Tbt S_Tbt L_Tbt L_Tbt2 L_Tbt3.

(** ** Which states a token may stand between. *)
Definition in_init (s : lexstate) : bool := match s with Init => true | _ => false end.
Definition in_repl (s : lexstate) : bool := match s with Repl => true | _ => false end.
Definition in_param (s : lexstate) : bool := match s with Param => true | _ => false end.
Definition same_state (a b : lexstate) : bool :=
  match a, b with Init, Init | Repl, Repl | Param, Param => true | _, _ => false end.

Definition step_ok (a : lexstate) (t : token) (b : lexstate) : bool :=
  match t with
  | TEXT _ => in_init a && in_init b
  | PCT => in_init a && in_repl b
  | RPAREN => in_init b
  | LPAREN | QUESTION => same_state a b
  | ALBUM_ABBREV | ARTIST_ABBREV | BASENAME_ABBREV | CONTENT_TYPE_ABBREV | ENCODED_BY_ABBREV
  | EXTENSION_ABBREV | MD5_ABBREV | SIZE_ABBREV | TITLE_ABBREV | YEAR_ABBREV => in_init b
  | COLON | AMP | ALBUM | ARTIST | BASENAME | CONTENT_TYPE | ENCODED_BY | EXTENSION | MD5 | SIZE | TITLE | YEAR =>
      in_repl a && in_repl b
  | V1_ONLY | V2_ONLY | TWO_DIGITS | FOUR_DIGITS | HEX_CASE => in_param a
  | _ => true
  end.

Lemma longest_in : forall ws l w x r, longest ws l = Some (w, x, r) -> In (w, x) ws.
Proof.
  induction ws as [|[w' x'] ws IH]; intros l w x r H; [discriminate H|]. cbn [longest] in H.
  destruct (after_prefix w' l) as [r'|]; destruct (longest ws l) as [[[w'' x''] r'']|] eqn:E.
  - destruct (List.length w' <? List.length w'')%nat.
    + injection H as <- <- <-. right. eapply IH. exact E.
    + injection H as <- <- <-. left. reflexivity.
  - injection H as <- <- <-. left. reflexivity.
  - injection H as <- <- <-. right. eapply IH. exact E.
  - discriminate H.
Qed.
Lemma find_word_in : forall ws t x, find_word ws t = Some x -> exists w, In (w, x) ws.
Proof.
  induction ws as [|[w y] ws IH]; intros t x H; [discriminate H|]. cbn [find_word] in H.
  destruct (bytes_eqb w t).
  - injection H as <-. exists w. left. reflexivity.
  - destruct (IH t x H) as [w' Hw]. exists w'. right. exact Hw.
Qed.

Lemma lex1_step : forall st l t st' rest, lex1 st l = Some (t, st', rest) -> step_ok st t st' = true.
Proof.
  intros st l t st' rest H. destruct l as [|c r]; [discriminate H|]. unfold lex1 in H. destruct st.
  - destruct (match_text (c :: r)) as [[|a u] v].
    + destruct (c =? 37); [injection H as <- <- <-; reflexivity|].
      destruct (c =? 40); [injection H as <- <- <-; reflexivity|].
      destruct (c =? 41); [injection H as <- <- <-; reflexivity|].
      destruct (c =? 63); injection H as <- <- <-; reflexivity.
    + injection H as <- <- <-. reflexivity.
  - destruct (longest replacement_words (c :: r)) as [[[w [t' st'']] r']|] eqn:E.
    + injection H as <- <- <-. apply longest_in in E.
      assert (F : forallb (fun p => step_ok Repl (fst (snd p)) (snd (snd p))) replacement_words = true) by (vm_compute; reflexivity).
      rewrite forallb_forall in F. exact (F _ E).
    + destruct (c =? 10); [discriminate H|]. injection H as <- <- <-. reflexivity.
  - destruct (match_text (c :: r)) as [[|a u] v].
    + injection H as <- <- <-. reflexivity.
    + destruct (find_word parameter_words (a :: u)) as [w|] eqn:E.
      * injection H as <- <- <-. destruct (find_word_in _ _ _ E) as [w' Hw].
        assert (F : forallb (fun p => step_ok Param (snd p) Repl) parameter_words = true) by (vm_compute; reflexivity).
        rewrite forallb_forall in F. exact (F _ Hw).
      * injection H as <- <- <-. reflexivity.
Qed.

(** The tokens follow each other from state to state. *)
Fixpoint chained (st : lexstate) (ts : list lexed) (e : lexstate) : Prop :=
  match ts with
  | [] => st = e
  | (a, t, b) :: r => a = st /\ step_ok a t b = true /\ chained b r e
  end.

Lemma lex_chained : forall f st l ts e, lex f st l = (ts, e) -> chained st ts e.
Proof.
  induction f as [|f IH]; intros st l ts e H.
  - injection H as <- <-. reflexivity.
  - destruct l as [|c r]; [injection H as <- <-; reflexivity|]. cbn [lex] in H.
    destruct (lex1 st (c :: r)) as [[[t st'] rest]|] eqn:E.
    + destruct (lex f st' rest) as [ts' e'] eqn:L. injection H as <- <-.
      cbn [chained]. split; [reflexivity|]. split; [eapply lex1_step; exact E | eapply IH; exact L].
    + eapply IH. exact H.
Qed.

Lemma chained_app : forall l1 l2 st e, chained st (l1 ++ l2) e -> exists m, chained st l1 m /\ chained m l2 e.
Proof.
  induction l1 as [|[[a t] b] l1 IH]; intros l2 st e H.
  - exists st. split; [reflexivity | exact H].
  - cbn [app chained] in H. destruct H as [-> [Hs H]]. destruct (IH l2 b e H) as [m [H1 H2]].
    exists m. split; [|exact H2]. cbn [chained]. auto.
Qed.

(** ** The parser consumes its input from the front. *)
Definition suffix_of (rest l : list lexed) : Prop := exists pre, l = pre ++ rest.
Lemma suffix_refl : forall l, suffix_of l l.
Proof. intro l. exists []. reflexivity. Qed.
Lemma suffix_cons : forall x rest l, suffix_of rest l -> suffix_of rest (x :: l).
Proof. intros x rest l [pre ->]. exists (x :: pre). reflexivity. Qed.
Lemma suffix_trans : forall a b c, suffix_of a b -> suffix_of b c -> suffix_of a c.
Proof. intros a b c [p ->] [q ->]. exists (q ++ p). rewrite app_assoc. reflexivity. Qed.

Ltac suffixes := first [apply suffix_refl | apply suffix_cons; suffixes].

Lemma parse_ws_suffix : forall f c r l o rest, parse_ws f c r l = PRes o rest ->
  suffix_of rest l /\ exists c' r', o = OWs c' r'.
Proof.
  induction f as [|f IH]; intros c r l o rest H; [discriminate H|]. cbn [parse_ws] in H.
  assert (Hnil : forall x, PRes x l = PRes o rest -> (exists c' r', x = OWs c' r') -> suffix_of rest l /\ exists c' r', o = OWs c' r').
  { intros x E [c' [r' ->]]. injection E as <- <-. split; [apply suffix_refl | eauto]. }
  destruct l as [|[[a t] b] l]; [eapply Hnil; [exact H | eauto]|].
  destruct t; try (eapply Hnil; [exact H | eauto]); clear Hnil.
  - cbn [parse_ws1 pbind] in H. destruct c; [discriminate H|].
    destruct (IH _ _ _ _ _ H) as [S O]. split; [apply suffix_cons; exact S | exact O].
  - destruct l as [|[[a' t'] b'] l]; [discriminate H|].
    destruct t'; try discriminate H.
    destruct l as [|[[a'' t''] b''] l]; [discriminate H|].
    destruct t''; try discriminate H.
    cbn [parse_ws1 pbind] in H. destruct r; [discriminate H|].
    destruct (IH _ _ _ _ _ H) as [S O]. split; [do 3 apply suffix_cons; exact S | exact O].
Qed.

(** An option that can be written. *)
Definition good_opt (o : opt) : Prop :=
  match o with
  | OSource p => p = PreferV1 \/ p = PreferV2
  | OV1enc e => e <> V1Utf16be /\ e <> V1Utf16le /\ e <> V1Utf32
  | OCase _ => False
  | _ => True
  end.

Ltac good := cbn [good_opt]; first [tauto | repeat split; discriminate].

Lemma parse_opt1_suffix : forall st l o p rest e, chained st l e -> st <> Param -> parse_opt1 l = PRes (o, p) rest ->
  suffix_of rest l /\ good_opt o.
Proof.
  intros st l o p rest e C Hst H. unfold parse_opt1 in H.
  destruct l as [|[[a t] b] l]; [discriminate H|].
  cbn [chained] in C. destruct C as [-> [Hs _]].
  destruct t; try discriminate H;
    try (injection H as <- <- <-; split; [suffixes | good]; fail);
    try (exfalso; cbn [step_ok] in Hs; destruct st; [discriminate Hs | discriminate Hs | contradiction Hst; reflexivity]; fail).
  all: destruct l as [|[[a' t'] b'] l]; try discriminate H; try (injection H as <- <- <-; split; [suffixes | good]; fail).
  all: destruct t'; try discriminate H; try (injection H as <- <- <-; split; [suffixes | good]; fail).
  all: destruct l as [|[[a'' t''] b''] l]; try discriminate H.
  all: destruct t''; try discriminate H; injection H as <- <- <-; (split; [suffixes | good]).
Qed.

Lemma parse_opt_suffix : forall k st l o p rest e, chained st l e -> st <> Param -> parse_opt k l = PRes (o, p) rest ->
  suffix_of rest l /\ good_opt o.
Proof.
  intros k st l o p rest e C Hst H. unfold parse_opt in H.
  destruct l as [|[[a t] b] l]; [discriminate H|].
  destruct (opt_starts k t); [|discriminate H].
  assert (W : pbind (parse_ws (S (List.length ((a, t, b) :: l))) false None ((a, t, b) :: l)) (fun o rest => PRes (o, true) rest)
              = PRes (o, p) rest -> suffix_of rest ((a, t, b) :: l) /\ good_opt o).
  { clear H. intro H. destruct (parse_ws _ _ _ _) as [o' r'|r'|q r'] eqn:E; [|discriminate H|discriminate H].
    cbn [pbind] in H. injection H as <- <- <-.
    destruct (parse_ws_suffix _ _ _ _ _ _ E) as [S [c' [r'' ->]]]. split; [exact S | exact Logic.I]. }
  destruct t; try (eapply parse_opt1_suffix; [exact C | exact Hst | exact H]); exact (W H).
Qed.

(** Options end with the closing parenthesis. *)
Lemma parse_opts_end : forall f k acc st l os rest e, chained st l e -> st <> Param -> Forall good_opt acc ->
  parse_opts f k acc l = PRes os rest ->
  (exists pre a b, l = pre ++ (a, RPAREN, b) :: rest) /\ Forall good_opt os.
Proof.
  induction f as [|f IH]; intros k acc st l os rest e C Hst Ha H; [discriminate H|].
  rewrite parse_opts_step in H.
  destruct (parse_opt k l) as [[o p] r|r|q r] eqn:E; [|discriminate H|discriminate H].
  destruct (parse_opt_suffix _ _ _ _ _ _ _ C Hst E) as [[pre ->] G]. cbn [pbind] in H.
  assert (Ha' : Forall good_opt (acc ++ [o])).
  { apply Forall_app. split; [exact Ha|]. constructor; [exact G | constructor]. }
  destruct (existsb (same_key o) acc).
  { destruct p; [|discriminate H]. destruct r as [|[[? t] ?] r]; [discriminate H|]. destruct t; discriminate H. }
  destruct r as [|[[a t] b] r]; [discriminate H|].
  destruct (chained_app _ _ _ _ C) as [m [_ C2]]. cbn [chained] in C2. destruct C2 as [-> [Hs C2]].
  destruct t; try discriminate H.
  - assert (b = Repl) as ->.
    { cbn [step_ok] in Hs. apply andb_true_iff in Hs. destruct Hs as [_ Hs]. destruct b; [discriminate Hs | reflexivity | discriminate Hs]. }
    destruct (IH _ _ _ _ _ _ _ C2 ltac:(discriminate) Ha' H) as [[pre' [a' [b' ->]]] G'].
    split; [|exact G']. exists (pre ++ (m, AMP, Repl) :: pre'), a', b'. rewrite <- app_assoc. reflexivity.
  - injection H as <- <-. split; [|exact Ha']. exists pre, m, b. reflexivity.
Qed.

Lemma pbind_res : forall A C (x : presult A) (f : A -> list lexed -> presult C) c rest,
  pbind x f = PRes c rest -> exists a r, x = PRes a r /\ f a r = PRes c rest.
Proof. intros A C [a r|r|q r] f c rest H; [exists a, r; split; [reflexivity | exact H] | discriminate H | discriminate H]. Qed.

Lemma good_aacet : forall os o, Forall good_opt os -> (a_sp o = PreferV1 \/ a_sp o = PreferV2) ->
  a_v1 o <> V1Utf16be /\ a_v1 o <> V1Utf16le /\ a_v1 o <> V1Utf32 ->
  let r := fold_left set_aacet os o in
  (a_sp r = PreferV1 \/ a_sp r = PreferV2) /\ (a_v1 r <> V1Utf16be /\ a_v1 r <> V1Utf16le /\ a_v1 r <> V1Utf32).
Proof.
  induction os as [|x os IH]; intros o H S V; [split; assumption|]. inversion H as [|? ? Hx Hf]; subst.
  cbn [fold_left]. apply IH; [exact Hf | |]; destruct x; cbn [set_aacet a_sp a_v1]; assumption.
Qed.
Lemma good_number : forall os bc, Forall good_opt os -> snd bc = None -> snd (fold_left set_number os bc) = None.
Proof.
  induction os as [|x os IH]; intros bc H E; [exact E|]. inversion H as [|? ? Hx Hf]; subst.
  cbn [fold_left]. apply IH; [exact Hf|]. destruct x; try exact E. contradiction Hx.
Qed.

(** A replacement ends with its parenthesis, and sets nothing unreachable. *)
Lemma parse_named_end : forall l x rest e st, chained st l e -> parse_named l = PRes x rest ->
  (exists pre a b, l = pre ++ (a, RPAREN, b) :: rest) /\ ~ unreachable_setting x.
Proof.
  intros l x rest e st C H. unfold parse_named in H.
  destruct l as [|[[a t] b] r]; [discriminate H|].
  destruct (is_name t) eqn:Nm; [|discriminate H].
  destruct r as [|[[a' t'] b'] r]; [discriminate H|].
  cbn [chained] in C. destruct C as [-> [_ [-> [Hs C]]]].
  destruct t'; try discriminate H.
  - assert (b' = Repl) as ->.
    { cbn [step_ok] in Hs. apply andb_true_iff in Hs. destruct Hs as [_ Hs]. destruct b'; [discriminate Hs | reflexivity | discriminate Hs]. }
    assert (Fin : forall k os rest, parse_opts (S (List.length r)) k [] r = PRes os rest ->
              (exists pre a0 b0, (st, t, b) :: (b, COLON, Repl) :: r = pre ++ (a0, RPAREN, b0) :: rest) /\ Forall good_opt os).
    { intros k os rest0 P.
      destruct (parse_opts_end _ _ _ _ _ _ _ _ C ltac:(discriminate) (Forall_nil _) P) as [[pre [a0 [b0 ->]]] G].
      split; [|exact G]. exists ((st, t, b) :: (b, COLON, Repl) :: pre), a0, b0. reflexivity. }
    destruct t; try discriminate Nm; cbn [aacet_name file_name] in H;
      first
      [ (* album, artist, content type, title *)
        apply pbind_res in H; destruct H as [os [r0 [P E]]];
        destruct (Fin _ _ _ P) as [F G]; injection E as <- <-; split; [exact F|];
        pose proof (good_aacet os aacet_default G ltac:(right; reflexivity) ltac:(repeat split; discriminate)) as [Q1 [Q2 [Q3 Q4]]];
        intro U; inversion U; subst; try congruence; destruct Q1; congruence
      | apply pbind_res in H; destruct H as [os [r0 [P E]]];
        destruct (Fin _ _ _ P) as [F G]; injection E as <- <-; split; [exact F|]; intro U; inversion U
      | apply pbind_res in H; destruct H as [os [r0 [P E]]];
        destruct (Fin _ _ _ P) as [F G];
        pose proof (good_number os (None, None) G eq_refl) as Q;
        destruct (fold_left set_number os (None, None)) as [bb cc]; injection E as <- <-; split; [exact F|];
        cbn [snd] in Q; subst cc; intro U; inversion U
      | idtac ].
    (* encoded-by *)
    + discriminate H.
    (* year *)
    + destruct r as [|[[a2 t2] b2] r]; [discriminate H|]. cbn [chained] in C. destruct C as [-> [Hs2 _]].
      destruct t2; try discriminate H; discriminate Hs2.
  - destruct (plain_term t) as [y|] eqn:P; [|discriminate H]. injection H as <- <-.
    split; [exists [(st, t, b)], b, b'; reflexivity|].
    destruct t; try discriminate Nm; injection P as <-; intro U; inversion U; subst; discriminate.
Qed.

(** ** Templates. *)
Lemma parse_terms_end : forall f l xs rest st e, chained st l e -> parse_terms f l = PRes xs rest ->
  st = Init /\ chained Init rest e /\ (forall x, In x xs -> ~ unreachable_setting x).
Proof.
  induction f as [|f IH]; intros l xs rest st e C H; [discriminate H|].
  assert (More : forall x r, chained Init r e -> ~ unreachable_setting x -> more f x r = PRes xs rest ->
            chained Init rest e /\ forall y, In y xs -> ~ unreachable_setting y).
  { intros x r Cr Ux M.
    assert (Last : PRes [x] r = PRes xs rest -> chained Init rest e /\ forall y, In y xs -> ~ unreachable_setting y).
    { intro E. injection E as <- <-. split; [exact Cr|]. intros y [<- | []]. exact Ux. }
    assert (Cons : pbind (parse_terms f r) (fun ys r' => PRes (x :: ys) r') = PRes xs rest ->
              chained Init rest e /\ forall y, In y xs -> ~ unreachable_setting y).
    { intro E. apply pbind_res in E. destruct E as [ys [r' [P E]]]. injection E as <- <-.
      destruct (IH _ _ _ _ _ Cr P) as [_ [Cr' U]]. split; [exact Cr'|].
      intros y [<- | Hy]; [exact Ux | exact (U y Hy)]. }
    unfold more in M. destruct r as [|[[a t] b] r]; [exact (Last M)|].
    destruct t; first [exact (Last M) | exact (Cons M)]. }
  destruct l as [|[[a t] b] l]; [discriminate H|].
  cbn [chained] in C. destruct C as [-> [Hs C]].
  destruct t; try discriminate H.
  - (* LPAREN *)
    rewrite parse_sub in H. apply pbind_res in H. destruct H as [ys [r [P H]]].
    destruct (IH _ _ _ _ _ C P) as [-> [Cr U]].
    assert (st = Init) as -> by (destruct st; [reflexivity | discriminate Hs | discriminate Hs]).
    split; [reflexivity|].
    destruct r as [|[[a1 t1] b1] r]; [discriminate H|]. cbn [chained] in Cr. destruct Cr as [-> [Hs1 Cr]].
    destruct t1; try discriminate H.
    destruct r as [|[[a2 t2] b2] r]; [discriminate H|]. cbn [chained] in Cr. destruct Cr as [-> [Hs2 Cr]].
    destruct t2; try discriminate H.
    assert (b1 = Init) as -> by (destruct b1; [reflexivity | discriminate Hs1 | discriminate Hs1]).
    assert (b2 = Init) as -> by (destruct b2; [reflexivity | discriminate Hs2 | discriminate Hs2]).
    apply (More (TSub ys) r Cr); [|exact H].
    intro K. inversion K as [| | | | | | | |y l' Hy Ky]; subst. exact (U y Hy Ky).
  - (* PCT *)
    assert (st = Init) as -> by (destruct st; [reflexivity | discriminate Hs | discriminate Hs]).
    split; [reflexivity|].
    destruct l as [|[[a1 t1] b1] l]; [discriminate H|].
    assert (Short : forall t, is_abbrev t = true -> chained b ((a1, t, b1) :: l) e ->
              match plain_term t with Some x => more f x l | None => PErr l end = PRes xs rest ->
              chained Init rest e /\ forall y, In y xs -> ~ unreachable_setting y).
    { intros t A Ct M. cbn [chained] in Ct. destruct Ct as [-> [Hs1 Ct]].
      assert (b1 = Init) as -> by (destruct t; try discriminate A; destruct b1; try discriminate Hs1; reflexivity).
      destruct (plain_term t) as [x|] eqn:Px; [|discriminate M].
      apply (More x l Ct); [|exact M].
      destruct t; try discriminate A; injection Px as <-; intro U; inversion U; subst; discriminate. }
    destruct t1; try discriminate H; try (refine (Short _ _ C H); reflexivity).
    change (pbind (parse_named l) (more f) = PRes xs rest) in H. apply pbind_res in H. destruct H as [x [r [P H]]].
    cbn [chained] in C. destruct C as [-> [Hs1 C]].
    destruct (parse_named_end _ _ _ _ _ C P) as [[pre [a2 [b2 ->]]] U].
    destruct (chained_app _ _ _ _ C) as [m [_ C2]]. cbn [chained] in C2. destruct C2 as [-> [Hs2 C2]].
    assert (b2 = Init) as -> by (destruct b2; [reflexivity | discriminate Hs2 | discriminate Hs2]).
    exact (More x r C2 U H).
  - (* TEXT *)
    assert (st = Init /\ b = Init) as [-> ->].
    { cbn [step_ok] in Hs. apply andb_true_iff in Hs. destruct Hs as [H1 H2].
      destruct st, b; try discriminate H1; try discriminate H2; split; reflexivity. }
    split; [reflexivity|]. rewrite parse_text in H.
    refine (More (TText t) l C _ H). intro U. inversion U.
Qed.

Theorem compiled_from_init : forall st s l st', template_processor st s = (Ok l, st') ->
  st = Init /\ st' = Init /\ forall x, In x l -> ~ unreachable_setting x.
Proof.
  intros st s l st' H. unfold template_processor in H.
  destruct (lex (List.length (c_str s)) st (c_str s)) as [ts e] eqn:L. apply lex_chained in L.
  destruct (parse_terms (S (List.length ts)) ts) as [xs [|p rest]|rest|q rest] eqn:P; try discriminate H.
  injection H as <- <-. destruct (parse_terms_end _ _ _ _ _ _ L P) as [-> [C U]].
  split; [reflexivity|]. split; [symmetry; exact C | exact U].
Qed.

(** A template compiled after others that compiled gives what it gives alone. *)
Theorem compile_after : forall ts, Forall compiles ts -> forall t,
  compile_all Init (ts ++ [t]) = map compile_alone (ts ++ [t]).
Proof.
  induction 1 as [|s ts [l H] _ IH]; intro t.
  - unfold compile_alone. cbn [app compile_all map]. destruct (template_processor Init t); reflexivity.
  - unfold compile_alone in H. cbn [app compile_all map]. unfold compile_alone at 1.
    destruct (template_processor Init s) as [o st'] eqn:E. cbn [fst] in *. subst o.
    destruct (compiled_from_init _ _ _ _ E) as [_ [-> _]]. rewrite IH. reflexivity.
Qed.

(** And one compiled from any other state is refused, whatever it is. *)
Theorem compile_stuck : forall st s, st <> Init -> forall l, fst (template_processor st s) <> Ok l.
Proof.
  intros st s H l K. destruct (template_processor st s) as [o st'] eqn:E. cbn [fst] in K. subst o.
  destruct (compiled_from_init _ _ _ _ E) as [-> _]. contradiction.
Qed.
