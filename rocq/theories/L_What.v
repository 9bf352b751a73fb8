(** * Lemmas: what the exceptions say. *)
From Verif Require Import Base M_Tagset S_Tagset L_Fs L_M3u M_Csv M_Po S_Po L_Po2 M_What S_What.
#[local] Open Scope N_scope.

Lemma decimal_injective m n : decimal m = decimal n -> m = n.
Proof. intros H. rewrite <- (proj1 (decimal_spec m)), <- (proj1 (decimal_spec n)), H. reflexivity. Qed.
Lemma decimal_first n : exists c r, decimal n = c :: r /\ 48 <= c <= 57.
Proof.
  destruct (decimal_spec n) as [_ [D E]]. destruct (decimal n) as [|c r]; [now elim E|]. exists c, r. split; [reflexivity|].
  cbn [forallb] in D. apply andb_true_iff in D as [D _]. unfold is_digit in D. apply andb_true_iff in D as [D1 D2].
  apply N.leb_le in D1, D2. lia.
Qed.
Lemma quoted_path_injective p q : quoted_path p = quoted_path q -> p = q.
Proof.
  intros H. change (in_quotes p = in_quotes q) in H. pose proof (quoted_ok p) as E. rewrite H, quoted_ok in E. now injection E.
Qed.
Lemma char_text_injective c d : c < 256 -> d < 256 -> char_text c = char_text d -> c = d.
Proof.
  intros Hc Hd. unfold char_text. destruct (N.ltb_spec c 128) as [G1|G1], (N.ltb_spec d 128) as [G2|G2]; intros H.
  - now apply decimal_injective.
  - exfalso. destruct (decimal_first c) as [x [r [E X]]]. rewrite E in H. cbn in H. injection H as H _. lia.
  - exfalso. destruct (decimal_first d) as [x [r [E X]]]. rewrite E in H. cbn in H. injection H as H _. lia.
  - apply app_inv_head in H. apply decimal_injective in H. lia.
Qed.

(** Nothing is lost at a zero. *)
Lemma c_string_visible l : visible l -> c_string l = l.
Proof.
  unfold visible. induction l as [|c r IH]; intros H; [reflexivity|]. cbn [c_string].
  destruct (N.eqb_spec c 0) as [->|_]; [elim H; now left|]. f_equal. apply IH. intros X. apply H. now right.
Qed.
Lemma visible_app l m : visible l -> visible m -> visible (l ++ m).
Proof. unfold visible. intros H1 H2 X. apply in_app_iff in X. tauto. Qed.
Lemma visible_check l : forallb (fun c => negb (c =? 0)) l = true -> visible l.
Proof. intros H X. rewrite forallb_forall in H. specialize (H 0 X). discriminate H. Qed.
Lemma visible_decimal n : visible (decimal n). Proof. now apply decimal_no. Qed.
Lemma visible_fid i : fid_visible i -> visible (fid_shown i).
Proof.
  destruct i as [a0 a1 a2|a0 a1 a2 a3]; [|exact (fun H => H)]. unfold fid_visible, fid_shown. intros H.
  destruct (N.eqb_spec a0 0) as [->|_]; [elim H; now left|exact H].
Qed.
Lemma visible_quoted p : visible p -> visible (quoted_path p).
Proof.
  intros H. unfold quoted_path. apply visible_app; [now apply visible_check|]. apply visible_app; [|now apply visible_check].
  intros X. apply in_flat_map in X as [c [I X]]. destruct ((c =? quote) || (c =? 92)); cbn [In] in X; destruct X as [X|X]; try discriminate X; try contradiction.
  - destruct X as [X|[]]. subst. now apply H.
  - subst. now apply H.
Qed.
Lemma shown_visible strerr x : system_messages strerr -> showable x -> visible (problem_text strerr x).
Proof.
  intros [S _] W.
  assert (P : forall p, visible (preference_text p)) by (intros []; now apply visible_check).
  assert (C : forall c, visible (char_text c)).
  { intros c. unfold char_text. destruct (c <? 128); [apply visible_decimal|]. apply visible_app; [now apply visible_check|apply visible_decimal]. }
  destruct x as [| | | | | | | |[]|[]|[]| | | |c|p [t|]| | |]; cbn [problem_text showable] in *; try (now apply visible_check);
    repeat (apply visible_app; [first [assumption | apply C | apply P | apply visible_decimal | now apply visible_fid | now apply visible_quoted | now apply visible_check]|]);
    first [assumption | apply visible_decimal | now apply visible_fid | now apply S | now apply visible_check | intros [X|[]]; now apply W].
Qed.

(** The parts can be told apart. *)
Lemma fid_shown_visible i : fid_visible i -> fid_shown i = match i with F3 a0 a1 a2 => [a0; a1; a2] | F4 a0 a1 a2 a3 => [a0; a1; a2; a3] end.
Proof.
  destruct i as [a0 a1 a2|a0 a1 a2 a3]; [|reflexivity]. unfold fid_visible, fid_shown. intros H.
  destruct (N.eqb_spec a0 0) as [->|_]; [elim H; now left|reflexivity].
Qed.
Lemma last_apostrophe l m r s : ~ In 39 r -> ~ In 39 s -> l ++ 39 :: r = m ++ 39 :: s -> l = m /\ r = s.
Proof.
  revert m. induction l as [|c l IH]; intros [|d m] R S H; cbn [List.app] in H.
  - injection H as H. now split.
  - injection H as _ H. elim R. rewrite H. apply in_app_iff. right. now left.
  - injection H as _ H. elim S. rewrite <- H. apply in_app_iff. right. now left.
  - injection H as -> H. destruct (IH m R S H) as [-> ->]. now split.
Qed.

Definition is_separator (x : problem) : bool := match x with WSeparator _ => true | _ => false end.
Lemma letter_first strerr x : is_separator x = false -> exists c r, problem_text strerr x = c :: r /\ 58 <= c.
Proof.
  intros H. destruct x as [| | | | | | | |[]|[]|[]| | | | | | | |]; try discriminate H; cbn [problem_text]; eexists; eexists; (split; [reflexivity|vm_compute; discriminate]).
Qed.
Lemma separator_first c : exists d r, char_text c = d :: r /\ d < 58.
Proof.
  unfold char_text. destruct (c <? 128).
  - destruct (decimal_first c) as [d [r [E X]]]. exists d, r. split; [exact E|lia].
  - eexists. eexists. split; [reflexivity|reflexivity].
Qed.

Definition sort_of (x : problem) : N :=
  match x with
  | WDuplicateFrame _ _ => 0 | WUnknownFrame _ => 1 | WReservedFrame _ => 2 | WInvalidTag => 3 | WNoTag => 4 | WUnknownVersion _ => 5
  | WInvalidV1 => 6 | WInvalidExt => 7 | WMp3 _ => 8 | WTagset _ => 9 | WOperation _ => 10 | WV2Version _ => 11 | WGenre _ => 12
  | WSeparator _ => 13 | WUnicode _ => 14 | WMissing _ _ => 15 | WNotFound _ => 16 | WOpen _ _ => 17 | WIconv _ => 18
  end.
Lemma sorts strerr x y : problem_text strerr x = problem_text strerr y -> sort_of x = sort_of y.
Proof.
  intros H.
  destruct (is_separator x) eqn:SX, (is_separator y) eqn:SY.
  - destruct x; try discriminate SX. destruct y; try discriminate SY. reflexivity.
  - exfalso. destruct x; try discriminate SX. destruct (letter_first strerr y SY) as [d [r [E X]]]. rewrite E in H.
    cbn [problem_text] in H. destruct (separator_first c) as [f [q [F Y]]]. rewrite F in H. cbn [List.app] in H. injection H as H _. lia.
  - exfalso. destruct y; try discriminate SY. destruct (letter_first strerr x SX) as [d [r [E X]]]. rewrite E in H.
    cbn [problem_text] in H. destruct (separator_first c) as [f [q [F Y]]]. rewrite F in H. cbn [List.app] in H. injection H as H _. lia.
  - destruct x as [| | | | | | | |[]|[]|[]| | | | | | | |]; try discriminate SX;
      destruct y as [| | | | | | | |[]|[]|[]| | | | | | | |]; try discriminate SY; try reflexivity; exfalso;
      cbv -[decimal quoted_path fid_shown preference_text] in H; discriminate H.
Qed.

Lemma split_same (l m u v : bytes) : length l = length m -> l ++ u = m ++ v -> l = m /\ u = v.
Proof.
  revert m. induction l as [|c l IH]; intros [|d m] L H; try discriminate L; [now split|]. cbn [List.app] in H. injection H as -> H.
  injection L as L. destruct (IH m L H) as [-> ->]. now split.
Qed.
Lemma fid_told i j u v : fid_visible i -> fid_visible j ->
  fid_shown i ++ B " was defined " ++ u = fid_shown j ++ B " was defined " ++ v -> i = j /\ u = v.
Proof.
  intros V1 V2. rewrite !fid_shown_visible by assumption.
  destruct i, j; intros H; try (exfalso; cbn in H; discriminate H); apply split_same in H as [E H]; try reflexivity;
    apply app_inv_head in H; split; [congruence|assumption|congruence|assumption].
Qed.
Lemma fid_shown_told i j : fid_visible i -> fid_visible j -> fid_shown i = fid_shown j -> i = j.
Proof. intros V1 V2. rewrite !fid_shown_visible by assumption. destruct i, j; congruence. Qed.
Lemma preference_told p q u v : preference_text p ++ B ")" ++ u = preference_text q ++ B ")" ++ v -> p = q /\ u = v.
Proof.
  destruct p, q; intros H; try (exfalso; cbn in H; discriminate H); (split; [reflexivity|]); apply app_inv_head in H; now apply app_inv_head in H.
Qed.

Lemma told_apart strerr x y : system_messages strerr -> showable x -> showable y ->
  problem_text strerr x = problem_text strerr y -> x = y.
Proof.
  intros [S1 S2] Wx Wy H. pose proof (sorts strerr x y H) as K.
  destruct x, y; try discriminate K; clear K; cbn [problem_text showable] in *; try reflexivity.
  - apply app_inv_head in H. apply fid_told in H as [-> H]; [|assumption..]. apply app_inv_tail in H. apply decimal_injective in H. now subst.
  - apply app_inv_head in H. apply fid_shown_told in H; [|assumption..]. now subst.
  - apply app_inv_head in H. apply app_inv_tail in H. apply fid_shown_told in H; [|assumption..]. now subst.
  - apply app_inv_head in H. apply decimal_injective in H. now subst.
  - destruct c, c0; try reflexivity; exfalso; cbn in H; discriminate H.
  - destruct c, c0; try reflexivity; exfalso; cbn in H; discriminate H.
  - destruct o, o0; try reflexivity; exfalso; cbn in H; discriminate H.
  - apply app_inv_head in H. apply decimal_injective in H. now subst.
  - apply app_inv_head in H. apply decimal_injective in H. now subst.
  - apply app_inv_tail in H. apply char_text_injective in H; [|assumption..]. now subst.
  - apply app_inv_head in H. congruence.
  - apply app_inv_head in H. apply preference_told in H as [-> H]. destruct tag as [t|], tag0 as [t'|]; try (exfalso; cbn in H; discriminate H); [|reflexivity].
    apply app_inv_head in H. apply app_inv_tail in H. now subst.
  - apply app_inv_head in H. apply app_inv_tail in H. apply quoted_path_injective in H. now subst.
  - apply app_inv_head in H.
    change (B "': ") with (39 :: B ": ") in H. cbn [List.app] in H. apply last_apostrophe in H as [-> H].
    + change (B ": " ++ strerr err = B ": " ++ strerr err0) in H. apply app_inv_head in H. apply S2 in H. now subst.
    + intros X. cbn [B List.app In] in X. destruct X as [X|[X|X]]; try discriminate X. now apply (S1 err).
    + intros X. cbn [B List.app In] in X. destruct X as [X|[X|X]]; try discriminate X. now apply (S1 err0).
  - apply app_inv_head in H. apply S2 in H. now subst.
Qed.

Lemma what_told strerr x y : system_messages strerr -> showable x -> showable y -> what strerr x = what strerr y -> x = y.
Proof.
  intros S Wx Wy. unfold what. rewrite !c_string_visible by now apply shown_visible. now apply told_apart.
Qed.

(** An identifier that begins with a zero ends the message. *)
Lemma zero_ends strerr a1 a2 a3 b1 b2 b3 : what strerr (WUnknownFrame (F4 0 a1 a2 a3)) = what strerr (WUnknownFrame (F4 0 b1 b2 b3)).
Proof. reflexivity. Qed.

Lemma says_decimal n : says n (decimal n).
Proof.
  destruct (decimal_spec n) as [V [D E]]. split; [exact E|]. split; [|exact V].
  intros c I. rewrite forallb_forall in D. specialize (D c I). unfold is_digit in D. apply andb_true_iff in D as [D1 D2].
  apply N.leb_le in D1, D2. lia.
Qed.
Lemma within_here p l m : within p (l ++ p ++ m). Proof. now exists l, m. Qed.
Lemma within_end p l : within p (l ++ p). Proof. exists l, []. now rewrite app_nil_r. Qed.
Lemma within_after p l m : within p m -> within p (l ++ m).
Proof. intros [u [v ->]]. exists (l ++ u), v. now rewrite <- app_assoc. Qed.

Lemma what_names strerr x part : system_messages strerr -> showable x -> In part (named strerr x) -> within part (what strerr x).
Proof.
  intros S W I. unfold what. rewrite c_string_visible by now apply shown_visible.
  destruct x as [| | | | | | | | | | | | | | |p [t|]| | |]; cbn [named problem_text showable In] in *; try contradiction; destruct I as [<-|I]; try contradiction;
    try (change (fid_chars i) with (match i with F3 a0 a1 a2 => [a0; a1; a2] | F4 a0 a1 a2 a3 => [a0; a1; a2; a3] end);
         rewrite <- fid_shown_visible by assumption).
  - apply within_here.
  - apply within_end.
  - apply within_here.
  - do 4 apply within_after. exists [], (B "'"). reflexivity.
  - apply within_here.
  - destruct I as [<-|[]]. do 3 apply within_after. exists [], []. now rewrite app_nil_r.
  - apply within_end.
Qed.
Lemma what_numbers strerr x n : system_messages strerr -> showable x -> numbered x = Some n -> exists ds, says n ds /\ within ds (what strerr x).
Proof.
  intros S W I. exists (decimal n). split; [apply says_decimal|]. unfold what. rewrite c_string_visible by now apply shown_visible.
  destruct x; cbn [numbered problem_text] in *; try discriminate I; injection I as ->.
  - do 2 apply within_after. apply within_here.
  - apply within_end.
  - apply within_end.
  - apply within_end.
Qed.
