(** * Lemmas: matching against the genre table. *)
From Coq Require Import ZArith.
From Verif Require Import Base M_Genres M_Match S_Match L_Match L_Match2 L_Match3 L_Match4.
Open Scope Z_scope.

Lemma genres_sizes : Forall (fun g => 1 <= length g <= 22)%nat genresw.
Proof.
  apply Forall_forall. intros g H.
  assert (E : forallb (fun g => (1 <=? length g) && (length g <=? 22))%nat genresw = true) by (vm_compute; reflexivity).
  rewrite forallb_forall in E. apply E in H. apply andb_true_iff in H as [H1 H2].
  apply Nat.leb_le in H1, H2. lia.
Qed.

Fixpoint eqs (a b : list N) : bool :=
  match a, b with [], [] => true | x :: a, y :: b => (x =? y)%N && eqs a b | _, _ => false end.
Lemma eqs_spec a : forall b, eqs a b = true <-> a = b.
Proof.
  induction a as [|x a IH]; intros [|y b]; cbn [eqs]; try (split; (reflexivity || discriminate)).
  rewrite andb_true_iff, N.eqb_eq, IH. split; [now intros [-> ->]|intros E; now inversion E].
Qed.
Fixpoint nodup (l : list (list N)) : bool :=
  match l with [] => true | x :: r => negb (existsb (eqs x) r) && nodup r end.
Lemma nodup_spec l : nodup l = true -> NoDup l.
Proof.
  induction l as [|x r IH]; cbn [nodup]; [constructor|]. intros H. apply andb_true_iff in H as [H1 H2].
  constructor; [|auto]. intros X. apply negb_true_iff in H1. assert (E : existsb (eqs x) r = true).
  { apply existsb_exists. exists x. split; [assumption|now apply eqs_spec]. } congruence.
Qed.
Lemma genres_nodup : NoDup genresw.
Proof. apply nodup_spec. vm_compute. reflexivity. Qed.

Lemma genres_lower : genresw = map (map low) genres.
Proof. vm_compute. reflexivity. Qed.
Lemma genres_count : length genres = 192%nat.
Proof. vm_compute. reflexivity. Qed.
Lemma genresw_count : length genresw = 192%nat.
Proof. vm_compute. reflexivity. Qed.

Lemma numbers g : text_for_genre g = nth_error genres (N.to_nat g).
Proof.
  unfold text_for_genre, len. rewrite genres_count. destruct (N.leb_spec (N.of_nat 192) g) as [L|L]; [|reflexivity].
  symmetry. apply nth_error_None. rewrite genres_count. lia.
Qed.
Lemma numbers_192 g : text_for_genre g <> None <-> (g < 192)%N.
Proof.
  rewrite numbers. rewrite nth_error_Some, genres_count. lia.
Qed.

Lemma seen_long B g : In g genresw -> (21 <= length B)%nat -> seen B g.
Proof.
  intros H L. pose proof genres_sizes as F. rewrite Forall_forall in F. apply F in H. unfold seen. lia.
Qed.

Lemma match_closest B i d : (1 <= length B)%nat -> Z.of_nat (length B) < 2 ^ 62 -> match_in genresw B = Ok (i, d) ->
  0 <= d /\ first_closest (seen B) genresw B (N.to_nat i) (Z.to_nat d).
Proof.
  intros L1 L2 E. destruct (match_ok genresw B genres_sizes L1 L2) as [(j & d' & E' & F & _)|[E' _]]; [|congruence].
  rewrite E in E'. apply Ok_inj in E'. inversion E'; subst. rewrite Nnat.Nat2N.id, Nat2Z.id. split; [lia|exact F].
Qed.

Lemma match_closest_long B i d : (21 <= length B)%nat -> Z.of_nat (length B) < 2 ^ 62 -> match_in genresw B = Ok (i, d) ->
  0 <= d /\ first_closest (fun _ => True) genresw B (N.to_nat i) (Z.to_nat d).
Proof.
  intros L1 L2 E. destruct (match_closest B i d ltac:(lia) L2 E) as [D [F1 F2]]. split; [exact D|]. split; [exact F1|].
  intros j g e HJ _ DE. apply (F2 j g e HJ); [|exact DE]. apply seen_long; [eapply nth_error_In; eassumption|assumption].
Qed.

Lemma short_genre : exists g, In g genresw /\ length g = 3%nat.
Proof.
  assert (E : existsb (fun g => Nat.eqb (length g) 3) genresw = true) by (vm_compute; reflexivity).
  apply existsb_exists in E as (g & H & E). exists g. split; [exact H|now apply Nat.eqb_eq].
Qed.

Lemma match_short B : (1 <= length B < 22)%nat -> exists i d, match_in genresw B = Ok (i, d) /\ (i < 192)%N.
Proof.
  intros L. destruct (match_ok genresw B genres_sizes) as [(j & d' & E' & [(g & G & _) _] & _)|[E' X]]; [lia| | |].
  - change (2 ^ 62) with 4611686018427387904. lia.
  - exists (N.of_nat j), (Z.of_nat d'). split; [exact E'|].
    assert (j < 192)%nat by (rewrite <- genresw_count; apply nth_error_Some; congruence). lia.
  - exfalso. destruct short_genre as (g & G & L3). destruct (dist_exists g B) as [e DE].
    pose proof (dist_le _ _ _ DE). specialize (X g e G). unfold seen in X. specialize (X ltac:(lia) DE). lia.
Qed.

Lemma match_long B : (22 <= length B)%nat -> Z.of_nat (length B) < 2 ^ 62 ->
  ((exists i d, match_in genresw B = Ok (i, d)) <-> exists g e, In g genresw /\ dist g B e /\ (e < length B)%nat) /\
  ((forall g e, In g genresw -> dist g B e -> (length B <= e)%nat) -> match_in genresw B = UB Uninitialised).
Proof.
  intros L L2. destruct (match_ok genresw B genres_sizes ltac:(lia) L2) as [(j & d & E & [(g & G & DD) _] & LT)|[E X]].
  - apply nth_error_In in G. split.
    + split; [intros _; exists g, d; repeat split; auto; try apply DD; lia|]. intros _. eauto.
    + intros H. specialize (H g d G DD). lia.
  - split; [|auto]. rewrite E. split; [intros (i & d & Q); discriminate|]. intros (g & e & G & DE & LT).
    specialize (X g e G (seen_long B g G ltac:(lia)) DE). lia.
Qed.

Lemma align_disjoint a b d : align a b d -> (forall c, In c b -> ~ In c a) -> (length b <= d)%nat.
Proof.
  induction 1 as [|c a b d H IH|x y a b d H IH|x a b d H IH|y a b d H IH|x y a b d H IH]; intros X; cbn [length].
  - lia.
  - exfalso. apply (X c); now left.
  - assert (length b <= d)%nat; [|lia]. apply IH. intros c C1 C2. apply (X c); now right.
  - assert (length b <= d)%nat; [|lia]. apply IH. intros c C1 C2. apply (X c); [assumption|now right].
  - assert (length b <= d)%nat; [|lia]. apply IH. intros c C1 C2. apply (X c); [now right|assumption].
  - exfalso. apply (X x); [right; now left|now left].
Qed.

Lemma match_foreign B : (22 <= length B)%nat -> Z.of_nat (length B) < 2 ^ 62 ->
  (forall g c, In g genresw -> In c B -> ~ In c g) -> match_in genresw B = UB Uninitialised.
Proof.
  intros L L2 H. apply (match_long B L L2). intros g e G [AL _]. apply (align_disjoint g B e AL). intros c C1 C2.
  exact (H g c G C1 C2).
Qed.

Lemma match_self i g : nth_error genresw i = Some g -> match_in genresw g = Ok (N.of_nat i, 0).
Proof.
  intros H. pose proof genres_sizes as F. rewrite Forall_forall in F. pose proof (F g (nth_error_In _ _ H)) as L.
  assert (L2 : Z.of_nat (length g) < 2 ^ 62) by (change (2 ^ 62) with 4611686018427387904; lia).
  assert (D0 : dist g g 0) by now apply dist_zero.
  destruct (match_ok genresw g genres_sizes ltac:(lia) L2) as [(j & d & E & [(g' & G & DD) F2] & _)|[E X]].
  - destruct (F2 i g 0%nat H ltac:(unfold seen; lia) D0) as [Z0 _]. assert (d = 0%nat) by lia. subst d.
    apply dist_zero in DD. subst g'. rewrite E. enough (j = i) by (subst; reflexivity).
    apply (NoDup_nth_error genresw); [apply genres_nodup|apply nth_error_Some; congruence|congruence].
  - exfalso. specialize (X g 0%nat (nth_error_In _ _ H) ltac:(unfold seen; lia) D0). lia.
Qed.

Lemma match_zero B i : (1 <= length B)%nat -> Z.of_nat (length B) < 2 ^ 62 ->
  match_in genresw B = Ok (i, 0) <-> nth_error genresw (N.to_nat i) = Some B.
Proof.
  intros L L2. split.
  - intros E. destruct (match_closest B i 0 L L2 E) as [_ [(g & G & DD) _]]. apply dist_zero in DD. congruence.
  - intros H. rewrite (match_self _ _ H), Nnat.N2Nat.id. reflexivity.
Qed.

Lemma match_case wide text i s : wide text = Ok (map low text) -> nth_error genres i = Some s ->
  map low text = map low s -> match_genre wide text = Ok (s, N.of_nat i, 0).
Proof.
  intros W H E. unfold match_genre. rewrite W. cbn [bind]. rewrite E.
  assert (HW : nth_error genresw i = Some (map low s)) by (rewrite genres_lower; now apply map_nth_error).
  rewrite (match_self _ _ HW). cbn [bind]. rewrite numbers, Nnat.Nat2N.id, H. reflexivity.
Qed.

Lemma named_inv (r : outcome (N * Z)) (f : N -> option bytes) s i d :
  (let* (i, d) := r in match f i with Some s => Ok (s, i, d) | None => UB Uninitialised end) = Ok (s, i, d) ->
  r = Ok (i, d) /\ f i = Some s.
Proof.
  destruct r as [[i' d']| | |]; cbn [bind]; try discriminate. destruct (f i') eqn:T; [|discriminate].
  intros E. apply Ok_inj in E. inversion E; subst. auto.
Qed.

Lemma match_genre_eq wide text w : wide text = Ok w -> match_genre wide text =
  let* (i, d) := match_in genresw w in
  match text_for_genre i with Some s => Ok (s, i, d) | None => UB Uninitialised end.
Proof. intros W. unfold match_genre. rewrite W. reflexivity. Qed.

Lemma match_genre_spec wide text w : wide text = Ok w -> (1 <= length w)%nat -> Z.of_nat (length w) < 2 ^ 62 ->
  forall s i d, match_genre wide text = Ok (s, i, d) ->
  text_for_genre i = Some s /\ 0 <= d /\ first_closest (seen w) genresw w (N.to_nat i) (Z.to_nat d).
Proof.
  intros W L L2 s i d E. rewrite (match_genre_eq _ _ _ W) in E. apply (named_inv (match_in genresw w)) in E as [E T].
  exact (conj T (match_closest w i d L L2 E)).
Qed.

Lemma align_len a b d : align a b d -> (length a <= length b + d)%nat.
Proof. induction 1; cbn [length]; lia. Qed.
Lemma align_prefix a b : align (a ++ b) a (length b).
Proof.
  induction a as [|x a IH]; cbn [app]; [|now apply align_same]. induction b; [constructor|now apply align_delete].
Qed.
Lemma dist_prefix a b : dist (a ++ b) a (length b).
Proof. split; [apply align_prefix|]. intros d H. apply align_len in H. rewrite app_length in H. lia. Qed.
