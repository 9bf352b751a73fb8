(** * Proofs about the CSV printer. *)
From Verif Require Import Base M_Csv S_Csv.

Definition finish (lax : bool) (sep : N) (last : bool) (a t : bytes) : option (list bytes * bytes) :=
  if last then Some ([a], t)
  else match csv_read lax sep AtStart t with
       | Some (fs, rest) => Some (a :: fs, rest)
       | None => None
       end.
Definition delim (sep : N) (last : bool) : N := if last then lf else sep.

Definition sep_fine (sep : N) : Prop := sep <> dquote /\ sep <> lf /\ sep <> cr.

Lemma separator_fine sep : separator_ok sep = true -> sep <> quote -> sep_fine sep.
Proof. unfold separator_ok, sep_fine, quote, dquote, lf, cr. lia. Qed.

Ltac neq := match goal with |- context [?a =? ?b] => destruct (N.eqb_spec a b) as [Heq | Hne] end.

Lemma after_delim lax sep last a t : sep_fine sep ->
  csv_read lax sep (AfterQuotes a) (delim sep last :: t) = finish lax sep last a t.
Proof.
  intros (H1 & H2 & H3). unfold delim, finish. destruct last; cbn [csv_read].
  - rewrite (proj2 (N.eqb_neq lf dquote)) by discriminate.
    rewrite (proj2 (N.eqb_neq lf sep)) by congruence. reflexivity.
  - rewrite (proj2 (N.eqb_neq sep dquote)) by assumption. now rewrite N.eqb_refl.
Qed.

Lemma plain_delim lax sep last a t : sep_fine sep ->
  csv_read lax sep (InPlain a) (delim sep last :: t) = finish lax sep last a t.
Proof.
  intros (H1 & H2 & H3). unfold delim, finish. destruct last; cbn [csv_read].
  - rewrite (proj2 (N.eqb_neq lf sep)) by congruence. reflexivity.
  - now rewrite N.eqb_refl.
Qed.

Lemma start_plain lax sep l : hd_error l <> Some dquote ->
  csv_read lax sep AtStart l = csv_read lax sep (InPlain []) l.
Proof.
  destruct l as [|c r]; [reflexivity|]. cbn [hd_error csv_read]. intros H.
  rewrite (proj2 (N.eqb_neq c dquote)) by congruence. reflexivity.
Qed.

Lemma quotes_run lax sep s a t :
  csv_read lax sep (InQuotes a) (doubled quote s ++ quote :: t) = csv_read lax sep (AfterQuotes (a ++ s)) t.
Proof.
  revert a. induction s as [|c r IH]; intros a.
  - rewrite app_nil_r. reflexivity.
  - cbn [doubled]. destruct (N.eqb_spec c quote) as [-> | Hc].
    + cbn [app csv_read]. change (quote =? dquote) with true. cbn [csv_read].
      rewrite IH. now rewrite <- app_assoc.
    + cbn [app csv_read]. rewrite (proj2 (N.eqb_neq c dquote)) by assumption.
      rewrite IH. now rewrite <- app_assoc.
Qed.

(** A carriage return never stands right before the line feed that ends the record. *)
Definition cr_free_end (lax last : bool) (f : bytes) : Prop :=
  if lax then last = true -> forall g, f <> g ++ [cr] else ~ In dquote f /\ ~ In cr f.

Lemma plain_run lax sep last f a t : sep_fine sep -> ~ In sep f -> ~ In lf f -> cr_free_end lax last f ->
  csv_read lax sep (InPlain a) (f ++ delim sep last :: t) = finish lax sep last (a ++ f) t.
Proof.
  intros Hs. revert a. induction f as [|c r IH]; intros a H1 H2 H3.
  - rewrite app_nil_r. cbn [app]. now apply plain_delim.
  - cbn [app csv_read].
    rewrite (proj2 (N.eqb_neq c sep)) by (intros ->; apply H1; now left).
    rewrite (proj2 (N.eqb_neq c lf)) by (intros ->; apply H2; now left).
    assert (E : (c =? cr) && match r ++ delim sep last :: t with d :: _ => d =? lf | [] => false end = false).
    { destruct (N.eqb_spec c cr) as [-> | Hc]; [|reflexivity]. cbn [andb].
      destruct r as [|d r']; cbn [app].
      - unfold delim. destruct last.
        + exfalso. unfold cr_free_end in H3. destruct lax; [now apply (H3 eq_refl [])|]. apply (proj2 H3). now left.
        + apply N.eqb_neq. apply Hs.
      - apply N.eqb_neq. intros ->. apply H2. now right; left. }
    rewrite E. clear E.
    assert (E : negb lax && ((c =? dquote) || (c =? cr)) = false).
    { destruct lax; [reflexivity|]. cbn [negb andb cr_free_end] in *. destruct H3 as (H3 & H4).
      apply orb_false_iff. split; apply N.eqb_neq; intros ->; [apply H3|apply H4]; now left. }
    rewrite E. rewrite IH.
    + now rewrite <- app_assoc.
    + intros Hin. apply H1. now right.
    + intros Hin. apply H2. now right.
    + unfold cr_free_end in *. destruct lax.
      * intros HL g Hg. apply (H3 HL (c :: g)). now rewrite Hg.
      * destruct H3 as (H3 & H4). split; intros Hin; [apply H3|apply H4]; now right.
Qed.

(** ** What a printed field reads as. *)
Definition reads_as (lax : bool) (sep : N) (last : bool) (p f : bytes) : Prop :=
  forall t, csv_read lax sep AtStart (p ++ delim sep last :: t) = finish lax sep last f t.

Lemma reads_plain lax sep last f : sep_fine sep -> plain_field lax sep last f -> reads_as lax sep last f f.
Proof.
  intros Hs (H1 & H2 & H3) t. rewrite start_plain.
  - rewrite plain_run; auto. unfold cr_free_end. destruct lax; tauto.
  - destruct f as [|c r]; cbn [app hd_error].
    + unfold delim. destruct last; [discriminate|]. destruct Hs as (Hs & _). congruence.
    + destruct lax; [apply H3|]. destruct H3 as (H3 & _). intros E. apply H3. left. congruence.
Qed.

Lemma reads_quoted lax sep last f : sep_fine sep -> reads_as lax sep last ([quote] ++ doubled quote f ++ [quote]) f.
Proof.
  intros Hs t. rewrite <- !app_assoc. cbn [app csv_read]. change (quote =? dquote) with true. cbn iota.
  rewrite quotes_run. rewrite after_delim by assumption. reflexivity.
Qed.

Lemma needs_escape sep f : existsb (fun c => (c =? sep) || (c =? newline)) f = true <-> In sep f \/ In lf f.
Proof.
  rewrite existsb_exists. split.
  - intros (c & Hin & E). apply orb_true_iff in E. destruct E as [E | E]; apply N.eqb_eq in E; subst; tauto.
  - intros [H | H]; eexists; (split; [exact H|]); rewrite N.eqb_refl; cbn; auto using orb_true_r.
Qed.

Lemma escape_plain sep f : ~ In sep f -> ~ In lf f -> escape sep quote f = f.
Proof.
  intros H1 H2. unfold escape. destruct (existsb _ f) eqn:E; [|reflexivity].
  apply needs_escape in E. tauto.
Qed.
Lemma escape_quoted sep f : In sep f \/ In lf f -> escape sep quote f = [quote] ++ doubled quote f ++ [quote].
Proof. intros H. apply needs_escape in H. unfold escape. now rewrite H. Qed.

Lemma reads_escape lax sep last f : sep_fine sep -> readable_field lax sep last f ->
  reads_as lax sep last (escape sep quote f) f.
Proof.
  intros Hs H. destruct H as [H | [H | H]].
  - rewrite escape_quoted by tauto. now apply reads_quoted.
  - rewrite escape_quoted by tauto. now apply reads_quoted.
  - rewrite escape_plain by apply H. now apply reads_plain.
Qed.

(** ** Fields that do not survive. *)
Lemma acc_prefix lax sep st l x fs rest : csv_read lax sep st l = Some (x :: fs, rest) ->
  match st with AtStart => True | InPlain a | InQuotes a | AfterQuotes a => exists y, x = a ++ y end.
Proof.
  revert st. induction l as [|c r IH]; intros st.
  - destruct st; cbn [csv_read]; intros E; try discriminate E; auto;
      injection E as <- _ _; exists []; now rewrite app_nil_r.
  - destruct st as [|a|a|a]; [easy|..]; cbn [csv_read].
    + destruct (c =? sep).
      { destruct (csv_read lax sep AtStart r) as [[fs' rest']|]; [|discriminate].
        intros E. injection E as <- _ _. exists []. now rewrite app_nil_r. }
      destruct (c =? lf). { intros E. injection E as <- _ _. exists []. now rewrite app_nil_r. }
      destruct (_ && _). { intros E. injection E as <- _ _. exists []. now rewrite app_nil_r. }
      destruct (_ && _); [discriminate|].
      intros E. apply IH in E. destruct E as (y & ->). exists (c :: y). now rewrite <- app_assoc.
    + destruct (c =? dquote); intros E; apply IH in E; destruct E as (y & ->).
      * now exists y.
      * exists (c :: y). now rewrite <- app_assoc.
    + destruct (c =? dquote).
      { intros E. apply IH in E. destruct E as (y & ->). exists (dquote :: y). now rewrite <- app_assoc. }
      destruct (c =? sep).
      { destruct (csv_read lax sep AtStart r) as [[fs' rest']|]; [|discriminate].
        intros E. injection E as <- _ _. exists []. now rewrite app_nil_r. }
      destruct (c =? lf). { intros E. injection E as <- _ _. exists []. now rewrite app_nil_r. }
      destruct (_ && _). { intros E. injection E as <- _ _. exists []. now rewrite app_nil_r. }
      discriminate.
Qed.

Lemma quoted_short lax sep last g t : sep_fine sep -> ~ In sep g -> ~ In lf g ->
  forall a x fs rest,
  (csv_read lax sep (InQuotes a) (g ++ delim sep last :: t) = Some (x :: fs, rest) ->
   In (delim sep last) x \/ (length x < length a + length g)%nat) /\
  (csv_read lax sep (AfterQuotes a) (g ++ delim sep last :: t) = Some (x :: fs, rest) ->
   In (delim sep last) x \/ (length x <= length a + length g)%nat).
Proof.
  intros Hs. induction g as [|c r IH]; intros H1 H2 a x fs rest.
  - cbn [app]. split.
    + intros E. cbn [csv_read] in E.
      rewrite (proj2 (N.eqb_neq (delim sep last) dquote)) in E by (unfold delim; destruct last; [discriminate|apply Hs]).
      apply acc_prefix in E. destruct E as (y & ->). left.
      apply in_or_app. left. apply in_or_app. right. now left.
    + rewrite after_delim by assumption. unfold finish. intros E. right. cbn [List.length].
      destruct last.
      * injection E as <- _ _. lia.
      * destruct (csv_read _ _ _ t) as [[? ?]|]; [|discriminate]. injection E as <- _ _. lia.
  - assert (H1' : ~ In sep r) by (intros Hin; apply H1; now right).
    assert (H2' : ~ In lf r) by (intros Hin; apply H2; now right).
    specialize (IH H1' H2'). split; cbn [app csv_read].
    + destruct (c =? dquote); intros E; apply IH in E; destruct E as [E | E]; auto; right; cbn [List.length].
      * lia.
      * rewrite app_length in E. cbn [List.length] in E. lia.
    + destruct (c =? dquote).
      { intros E. apply IH in E. destruct E as [E | E]; auto. right.
        rewrite app_length in E. cbn [List.length] in *. lia. }
      rewrite (proj2 (N.eqb_neq c sep)) by (intros ->; apply H1; now left).
      rewrite (proj2 (N.eqb_neq c lf)) by (intros ->; apply H2; now left).
      destruct (_ && _); [|discriminate]. intros E. injection E as <- _ _. right. cbn [List.length]. lia.
Qed.

Lemma lost_quote lax sep last g t fs rest : sep_fine sep -> ~ In sep (dquote :: g) -> ~ In lf (dquote :: g) ->
  csv_read lax sep AtStart ((dquote :: g) ++ delim sep last :: t) <> Some ((dquote :: g) :: fs, rest).
Proof.
  intros Hs H1 H2 E. cbn [app csv_read] in E. change (dquote =? dquote) with true in E. cbn iota in E.
  apply quoted_short in E; auto.
  - destruct E as [E | E].
    + unfold delim in E. destruct last; tauto.
    + cbn [List.length] in E. lia.
  - intros Hin. apply H1. now right.
  - intros Hin. apply H2. now right.
Qed.

Lemma lost_strict sep last f : sep_fine sep -> ~ In sep f -> ~ In lf f ->
  forall a t x fs rest, In dquote f \/ In cr f ->
  csv_read false sep (InPlain a) (f ++ delim sep last :: t) = Some (x :: fs, rest) ->
  (length x < length a + length f)%nat.
Proof.
  intros Hs. induction f as [|c r IH]; intros H1 H2 a t x fs rest H.
  - destruct H as [[]|[]].
  - cbn [app csv_read].
    rewrite (proj2 (N.eqb_neq c sep)) by (intros ->; apply H1; now left).
    rewrite (proj2 (N.eqb_neq c lf)) by (intros ->; apply H2; now left).
    destruct ((c =? cr) && _).
    + intros E. injection E as <- _ _. cbn [List.length]. lia.
    + cbn [negb andb]. destruct ((c =? dquote) || (c =? cr)) eqn:E1; [discriminate|].
      apply orb_false_iff in E1. destruct E1 as (E1 & E2). apply N.eqb_neq in E1, E2.
      intros E. apply IH in E.
      * rewrite app_length in E. cbn [List.length] in *. lia.
      * intros Hin. apply H1. now right.
      * intros Hin. apply H2. now right.
      * destruct H as [[H | H] | [H | H]]; try congruence; tauto.
Qed.

(** Only fields ending in a carriage return, before a line feed, lose it. *)
Lemma lost_cr sep g t : sep_fine sep -> ~ In sep g -> ~ In lf g -> forall a,
  exists g', csv_read true sep (InPlain a) ((g ++ [cr]) ++ lf :: t) = Some ([g'], t) /\
             (length g' < length a + length (g ++ [cr]))%nat.
Proof.
  intros Hs. induction g as [|c r IH]; intros H1 H2 a.
  - cbn [app csv_read]. destruct Hs as (Hs1 & Hs2 & Hs3).
    rewrite (proj2 (N.eqb_neq cr sep)) by congruence. exists a. split; [reflexivity|]. cbn. lia.
  - cbn [app csv_read].
    rewrite (proj2 (N.eqb_neq c sep)) by (intros ->; apply H1; now left).
    rewrite (proj2 (N.eqb_neq c lf)) by (intros ->; apply H2; now left).
    assert (E : (c =? cr) && match (r ++ [cr]) ++ lf :: t with d :: _ => d =? lf | [] => false end = false).
    { destruct (N.eqb_spec c cr) as [-> | Hc]; [|reflexivity]. cbn [andb].
      destruct r as [|d r']; cbn [app]; [reflexivity|]. apply N.eqb_neq. intros ->. apply H2. now right; left. }
    rewrite E. cbn [negb andb].
    destruct (IH (fun Hin => H1 (or_intror Hin)) (fun Hin => H2 (or_intror Hin)) (a ++ [c])) as (g' & E1 & E2).
    exists g'. split; [exact E1|]. rewrite app_length in E2. cbn [List.length] in *. lia.
Qed.

Lemma lost_field lax sep last f t fs rest : sep_fine sep -> ~ In sep f -> ~ In lf f ->
  ~ plain_field lax sep last f ->
  csv_read lax sep AtStart (f ++ delim sep last :: t) <> Some (f :: fs, rest).
Proof.
  intros Hs H1 H2 H3.
  destruct f as [|c r].
  { exfalso. apply H3. split; [easy|]. split; [easy|]. destruct lax.
    - split; [discriminate|]. intros _ g. destruct g; discriminate.
    - split; easy. }
  destruct (N.eq_dec c dquote) as [-> | Hc]; [now apply lost_quote|].
  rewrite start_plain by (cbn; congruence).
  destruct lax.
  - destruct last.
    + assert (E : exists g, c :: r = g ++ [cr]).
      { destruct (@exists_last _ (c :: r)) as (g & z & E); [discriminate|].
        destruct (N.eq_dec z cr) as [-> | Hz]; [now exists g|]. exfalso. apply H3.
        split; [exact H1|]. split; [exact H2|]. split; [cbn; congruence|].
        intros _ g' E'. rewrite E in E'. apply app_inj_tail in E'. now destruct E' as (_ & ->). }
      destruct E as (g & E). rewrite E in *. unfold delim.
      destruct (lost_cr sep g t Hs) with (a := @nil N) as (g' & E1 & E2).
      * intros Hin. apply H1. apply in_or_app. now left.
      * intros Hin. apply H2. apply in_or_app. now left.
      * rewrite E1. intros E3. injection E3 as E3 _ _. subst g'. cbn [List.length] in E2. lia.
    + exfalso. apply H3. split; [exact H1|]. split; [exact H2|]. split; [cbn; congruence|]. discriminate.
  - intros E. apply lost_strict in E; auto.
    + cbn [List.length] in E. lia.
    + destruct (in_dec N.eq_dec dquote (c :: r)) as [D | D]; [now left|].
      destruct (in_dec N.eq_dec cr (c :: r)) as [D' | D']; [now right|].
      exfalso. apply H3. repeat split; auto.
Qed.

Lemma readable_dec lax sep last f : sep_fine sep ->
  readable_field lax sep last f \/ (~ In sep f /\ ~ In lf f /\ ~ plain_field lax sep last f).
Proof.
  intros Hs. unfold readable_field.
  destruct (in_dec N.eq_dec sep f) as [D | D]; [tauto|].
  destruct (in_dec N.eq_dec lf f) as [D' | D']; [tauto|].
  assert (P : plain_field lax sep last f \/ ~ plain_field lax sep last f); [|tauto].
  unfold plain_field. destruct lax.
  - assert (Q : hd_error f = Some dquote \/ hd_error f <> Some dquote).
    { destruct f as [|c r]; cbn; [right; discriminate|].
      destruct (N.eq_dec c dquote) as [-> | Hc]; [now left|right; congruence]. }
    destruct Q as [Q | Q]; [right; tauto|].
    destruct last.
    + destruct f as [|c r].
      { left. repeat split; auto. intros _ g. destruct g; discriminate. }
      destruct (@exists_last _ (c :: r)) as (g & z & E); [discriminate|]. rewrite E in *.
      destruct (N.eq_dec z cr) as [-> | Hz].
      * right. intros (_ & _ & _ & H). now apply (H eq_refl g).
      * left. repeat split; auto. intros _ g' E'. apply app_inj_tail in E'. now destruct E' as (_ & ->).
    + left. repeat split; auto. discriminate.
  - destruct (in_dec N.eq_dec dquote f) as [D1 | D1]; [right; tauto|].
    destruct (in_dec N.eq_dec cr f) as [D2 | D2]; [right; tauto|].
    left. tauto.
Qed.

(** ** Rows *)
Definition printed (sep : N) (fs : list bytes) : bytes := separated sep (map (escape sep quote) fs).

Lemma row_exact lax sep fs rest : sep_fine sep -> fs <> [] ->
  (read_record lax sep (printed sep fs ++ [newline] ++ rest) = Some (fs, rest) <-> readable_row lax sep fs).
Proof.
  intros Hs. unfold read_record, printed. change newline with lf.
  induction fs as [|f r IH]; [easy|]. intros _.
  destruct r as [|f' r'].
  - cbn [map separated readable_row]. change ([lf] ++ rest) with (delim sep true :: rest).
    destruct (readable_dec lax sep true f Hs) as [H | (H1 & H2 & H3)].
    + split; [auto|]. intros _. rewrite (reads_escape lax sep true f Hs H rest). reflexivity.
    + split.
      * rewrite escape_plain by assumption. intros E. now apply lost_field in E.
      * intros [H | [H | H]]; tauto.
  - remember (f' :: r') as r eqn:Er.
    assert (E1 : separated sep (map (escape sep quote) (f :: r)) ++ [lf] ++ rest =
                 escape sep quote f ++ delim sep false :: (separated sep (map (escape sep quote) r) ++ [lf] ++ rest)).
    { subst r. cbn [map separated delim]. rewrite <- !app_assoc. reflexivity. }
    rewrite E1. clear E1.
    assert (E2 : readable_row lax sep (f :: r) <-> readable_field lax sep false f /\ readable_row lax sep r).
    { subst r. reflexivity. }
    rewrite E2. clear E2.
    destruct (readable_dec lax sep false f Hs) as [H | (H1 & H2 & H3)].
    + rewrite (reads_escape lax sep false f Hs H _). unfold finish.
      assert (Hr : r <> []) by (subst r; discriminate). specialize (IH Hr).
      split.
      * destruct (csv_read _ _ _ _) as [[fs' rest']|]; [|discriminate].
        intros E. injection E as -> ->. split; [exact H|]. now apply IH.
      * intros (_ & H'). apply IH in H'. now rewrite H'.
    + split.
      * rewrite escape_plain by assumption. intros E. now apply lost_field in E.
      * intros ([H | [H | H]] & _); tauto.
Qed.

(** Rows put together from printed forms and the fields they read as. *)
Inductive reads_row (lax : bool) (sep : N) : list bytes -> list bytes -> Prop :=
| reads_one p f : reads_as lax sep true p f -> reads_row lax sep [p] [f]
| reads_cons p f ps fs : reads_as lax sep false p f -> reads_row lax sep ps fs -> reads_row lax sep (p :: ps) (f :: fs).

Lemma reads_row_nil lax sep fs : ~ reads_row lax sep [] fs.
Proof. inversion 1. Qed.

Lemma reads_row_read lax sep ps fs rest : reads_row lax sep ps fs ->
  read_record lax sep (separated sep ps ++ [newline] ++ rest) = Some (fs, rest).
Proof.
  unfold read_record. change newline with lf. induction 1 as [p f H | p f ps fs H Hr IH].
  - cbn [separated]. apply (H rest).
  - destruct ps as [|p' ps']; [now apply reads_row_nil in Hr|].
    assert (E : separated sep (p :: p' :: ps') ++ [lf] ++ rest =
                p ++ delim sep false :: (separated sep (p' :: ps') ++ [lf] ++ rest)).
    { cbn [separated delim]. rewrite <- !app_assoc. reflexivity. }
    rewrite E, (H _). unfold finish. now rewrite IH.
Qed.

Lemma reads_row_app lax sep ps fs qs gs : Forall2 (reads_as lax sep false) ps fs -> reads_row lax sep qs gs ->
  reads_row lax sep (ps ++ qs) (fs ++ gs).
Proof. intros H Hq. induction H; cbn [app]; [assumption|]. now constructor. Qed.

Lemma separated_app sep ps qs : qs <> [] ->
  separated sep (ps ++ qs) = flat_map (fun p : bytes => p ++ [sep]) ps ++ separated sep qs.
Proof.
  intros H. induction ps as [|p ps IH]; [reflexivity|].
  cbn [app flat_map]. rewrite <- !app_assoc. rewrite <- IH.
  destruct (ps ++ qs) as [|x l] eqn:E; [|reflexivity].
  apply app_eq_nil in E. tauto.
Qed.

(** ** Numbers *)
Definition hexdigit (c : N) : Prop := (48 <= c /\ c <= 57) \/ (97 <= c /\ c <= 102).

Lemma digit_hex d : d < 16 -> hexdigit (digit d).
Proof. unfold hexdigit, digit. destruct (N.ltb_spec d 10); lia. Qed.

Lemma number_loop_hex base fuel n : 2 <= base -> base <= 16 -> Forall hexdigit (number_loop base fuel n).
Proof.
  intros Hb1 Hb2. revert n. induction fuel as [|k IH]; intros n; cbn [number_loop]; [constructor|].
  destruct (N.ltb_spec n base).
  - constructor; [|constructor]. apply digit_hex. lia.
  - apply Forall_app. split; [apply IH|]. constructor; [|constructor]. apply digit_hex.
    apply N.lt_le_trans with base; [|assumption]. apply N.mod_lt. lia.
Qed.
Lemma number_hex base n : 2 <= base -> base <= 16 -> Forall hexdigit (number base n).
Proof. intros. now apply number_loop_hex. Qed.

Lemma fuel_div base k n : 2 <= base -> base <= n -> (N.to_nat (N.log2 n) < S k)%nat ->
  (N.to_nat (N.log2 (n / base)) < k)%nat.
Proof.
  intros Hb Hn Hk.
  assert (N.log2 (n / base) < N.log2 n); [|lia].
  apply N.lt_le_trans with (N.log2 (n / base) + 1); [lia|].
  assert (Hd : 1 <= n / base).
  { apply N.div_le_lower_bound; lia. }
  replace (N.log2 (n / base) + 1) with (N.succ (N.log2 (n / base))) by lia.
  rewrite <- N.log2_double by lia. apply N.log2_le_mono.
  transitivity (base * (n / base)); [apply N.mul_le_mono_r; assumption|]. apply N.mul_div_le. lia.
Qed.

Lemma decimal_value_app acc l m : decimal_value acc (l ++ m) =
  match decimal_value acc l with Some v => decimal_value v m | None => None end.
Proof.
  revert acc. induction l as [|c r IH]; intros acc; [reflexivity|]. cbn [app decimal_value].
  destruct (_ && _); [apply IH|reflexivity].
Qed.

Lemma number_loop_not_nil base k n : number_loop base (S k) n <> [].
Proof.
  cbn [number_loop]. destruct (n <? base); [discriminate|]. intros E. apply app_eq_nil in E. destruct E; discriminate.
Qed.

Lemma digit_dec d acc : d < 10 -> decimal_value acc [digit d] = Some (acc * 10 + d).
Proof.
  intros H. unfold digit. rewrite (proj2 (N.ltb_lt d 10)) by lia. cbn [decimal_value].
  rewrite (proj2 (N.leb_le 48 (48 + d))) by lia. rewrite (proj2 (N.leb_le (48 + d) 57)) by lia.
  cbn [andb]. f_equal. lia.
Qed.

Lemma decimal_number_loop fuel n : (N.to_nat (N.log2 n) < fuel)%nat -> decimal_value 0 (number_loop 10 fuel n) = Some n.
Proof.
  revert n. induction fuel as [|k IH]; intros n Hf; [lia|]. cbn [number_loop].
  destruct (N.ltb_spec n 10).
  - rewrite digit_dec by assumption. f_equal; lia.
  - rewrite decimal_value_app, IH by (apply fuel_div; lia).
    rewrite digit_dec by (apply N.mod_lt; lia). f_equal.
    pose proof (N.div_mod n 10 ltac:(lia)) as E. lia.
Qed.
Lemma as_decimal_number n : as_decimal (number 10 n) = Some n.
Proof.
  unfold as_decimal, number. pose proof (number_loop_not_nil 10 (N.to_nat (N.log2 n)) n) as H.
  destruct (number_loop 10 _ n) as [|c r] eqn:E; [easy|]. rewrite <- E. apply decimal_number_loop. lia.
Qed.

Lemma digit_dec_hex d acc v : d < 16 -> decimal_value acc [digit d] = Some v -> v = acc * 10 + d.
Proof.
  intros H. unfold digit. destruct (N.ltb_spec d 10) as [H' | H'].
  - intros E. pose proof (digit_dec d acc H') as E'. unfold digit in E'.
    rewrite (proj2 (N.ltb_lt d 10)) in E' by assumption. congruence.
  - cbn [decimal_value]. rewrite (proj2 (N.leb_gt (87 + d) 57)) by lia. rewrite andb_false_r. discriminate.
Qed.

Lemma hex_smaller fuel n v : (N.to_nat (N.log2 n) < fuel)%nat -> decimal_value 0 (number_loop 16 fuel n) = Some v ->
  v <= n /\ (16 <= n -> v < n).
Proof.
  revert n v. induction fuel as [|k IH]; intros n v Hf; [lia|]. cbn [number_loop].
  destruct (N.ltb_spec n 16).
  - intros E. apply digit_dec_hex in E; lia.
  - rewrite decimal_value_app. destruct (decimal_value 0 (number_loop 16 k (n / 16))) as [v'|] eqn:E'; [|discriminate].
    apply IH in E'; [|apply fuel_div; lia]. destruct E' as (E' & _).
    intros E. apply digit_dec_hex in E; [|apply N.mod_lt; lia].
    pose proof (N.div_mod n 16 ltac:(lia)) as D.
    assert (1 <= n / 16) by (apply N.div_le_lower_bound; lia).
    set (q := n / 16) in *. set (m := n mod 16) in *. clearbody q m. lia.
Qed.

(** From ten on, a number in base sixteen does not read as that number. *)
Lemma hex_wrong n : 10 <= n -> as_decimal (number 16 n) <> Some n.
Proof.
  intros Hn. unfold as_decimal, number.
  pose proof (number_loop_not_nil 16 (N.to_nat (N.log2 n)) n) as H.
  destruct (number_loop 16 _ n) as [|c r] eqn:E; [easy|]. rewrite <- E. clear E H. intros E.
  destruct (N.ltb_spec n 16) as [H16 | H16].
  - cbn [number_loop] in E. rewrite (proj2 (N.ltb_lt n 16)) in E by assumption.
    unfold digit in E. rewrite (proj2 (N.ltb_ge n 10)) in E by assumption.
    cbn [decimal_value] in E. rewrite (proj2 (N.leb_gt (87 + n) 57)) in E by lia.
    rewrite andb_false_r in E. discriminate.
  - apply hex_smaller in E; lia.
Qed.
