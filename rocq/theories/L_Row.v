From Verif Require Import Base M_Ints M_Id3v1 M_Payload M_Cloud M_Frame M_Charset M_Lookup M_Cmds M_Csv M_Report M_Dump M_Row S_Csv S_Row L_Csv.
#[local] Open Scope N_scope.

(** ** Numbers and the separator *)
Definition numeral (c : N) : Prop := hexdigit c \/ c = 120.
Lemma numeral_not sep c : separator_ok sep = true -> numeral c -> c <> sep /\ c <> lf /\ c <> dquote /\ c <> cr.
Proof.
  unfold separator_ok, numeral, hexdigit, lf, dquote, cr. intros H1 H2.
  assert (48 <= c) by lia. assert (c <= 120) by lia. repeat split; lia.
Qed.
Lemma numeral_plain lax sep last f : separator_ok sep = true -> Forall numeral f -> plain_field lax sep last f.
Proof.
  intros Hs Hf. rewrite Forall_forall in Hf.
  assert (A : forall c, In c f -> c <> sep /\ c <> lf /\ c <> dquote /\ c <> cr).
  { intros c Hc. apply numeral_not; auto. }
  clear Hf. split; [|split].
  - intros H. destruct (A _ H). congruence.
  - intros H. destruct (A _ H). tauto.
  - destruct lax.
    + split.
      * destruct f as [|c r]; [discriminate|]. cbn [hd_error]. intros E. injection E as ->.
        destruct (A dquote (or_introl eq_refl)). tauto.
      * intros _ g ->. destruct (A cr ltac:(apply in_or_app; right; left; reflexivity)). tauto.
    + split; intros H; destruct (A _ H); tauto.
Qed.
Lemma number_numeral base n : 2 <= base -> base <= 16 -> Forall numeral (number base n).
Proof. intros. apply Forall_impl with (2 := number_hex base n ltac:(assumption) ltac:(assumption)). now left. Qed.
Lemma width2_numeral s : Forall numeral s -> Forall numeral (width2 s).
Proof.
  assert (Z : numeral 48) by (left; left; lia).
  intros H. destruct s as [|c [|d r]]; cbn [width2]; auto.
  change (Forall numeral [48; 48]). auto.
Qed.
Lemma hex_numeral l : Forall numeral (hex_bytes l).
Proof.
  induction l as [|x l IH]; [constructor|]. unfold hex_bytes in *. cbn [flat_map]. apply Forall_app. split; [|exact IH].
  apply width2_numeral, number_numeral; lia.
Qed.
Lemma ox_numeral : Forall numeral (B "0x").
Proof. change (Forall numeral [48; 120]). constructor; [left; left; lia|]. constructor; [now right|constructor]. Qed.

(** ** One frame *)
Lemma pput_ok o s : o = Ok s -> pput o = (s, Ok tt).
Proof. now intros ->. Qed.
Lemma pput_esc (esc : bytes -> bytes) (o : outcome bytes) s : o = Ok s -> pput (let* x := o in Ok (esc x)) = (esc s, Ok tt).
Proof. now intros ->. Qed.
Lemma bind_ok {A C} (o : outcome A) (k : A -> outcome C) y : (let* x := o in k x) = Ok y -> exists x, o = Ok x /\ k x = Ok y.
Proof. destruct o; try discriminate. intros E. eexists. split; [reflexivity|exact E]. Qed.
Lemma pthen_ok a b : pthen (a, Ok tt) b = (a ++ fst b, snd b).
Proof. reflexivity. Qed.

Lemma read2 lax sep p f q g : reads_as lax sep false p f -> reads_as lax sep true q g -> reads_row lax sep [p; q] [f; g].
Proof. intros. constructor; [assumption|]. now constructor. Qed.
Lemma read3 lax sep p f q g r h : reads_as lax sep false p f -> reads_as lax sep false q g -> reads_as lax sep true r h ->
  reads_row lax sep [p; q; r] [f; g; h].
Proof. intros. constructor; [assumption|]. now apply read2. Qed.

Definition prints (r : pr) (sep : N) (ps : list bytes) : Prop := r = (separated sep ps, Ok tt).

(** What is printed, field by field: the printed forms of the fields, for a base. *)
Definition row_parts (s : rowstyle) (base : N) (f : frame) (fs : list bytes) : list bytes :=
  let esc := st_esc (rs_st s) in
  match f_body f, fs with
  | BUfid u, [o; _] => [esc o; B "0x" ++ raw_bytes (uf_id u)]
  | BEncr e, [o; _; _] => [esc o; match en_method e with Some m => number base m | None => [] end; B "0x" ++ raw_bytes (en_data e)]
  | BTxxx t, [_; d; x] => [number base (ud_unicode t); esc d; esc x]
  | BComm c, [l; d; x] => [l; esc d; esc x]
  | BCount c, _ => [match counter_value c with Ok n => number base (n mod 2 ^ 32) | _ => [] end]
  | BPopm p, [e; r; c] => [esc e; r; c]
  | BUnknown _, _ | BPriv _, _ => fs
  | _, _ => map esc fs
  end.

Lemma row_printed s ic base v f fs : frame_fields s ic v f = Ok fs ->
  (forall c, f_body f = BCloud c -> v <> V24) -> (forall p, f_body f = BPriv p -> v <> V24) ->
  print_row s ic base v f = (separated (st_sep (rs_st s)) (row_parts s base f fs), Ok tt).
Proof.
  intros E Hc Hp.
  assert (X : print_row s ic base v f = frame_row s ic base v f).
  { unfold print_row. destruct v; try reflexivity. destruct (f_body f) eqn:B; try reflexivity.
    - now elim (Hc _ eq_refl).
    - now elim (Hp _ eq_refl). }
  rewrite X. clear X Hc Hp.
  unfold frame_fields in E. unfold frame_row, row_parts. destruct (f_body f) as [b|u|e|t|t|c|c|p|c|p].
  - injection E as <-. reflexivity.
  - apply bind_ok in E. destruct E as (o & E1 & E). injection E as <-. rewrite (pput_esc _ _ _ E1).
    rewrite pthen_ok. reflexivity.
  - apply bind_ok in E. destruct E as (o & E1 & E). apply bind_ok in E. destruct E as (m & E2 & E). injection E as <-.
    rewrite (pput_esc _ _ _ E1). destruct (en_method e) as [m'|]; [|discriminate]. cbn [init] in E2. injection E2 as <-.
    rewrite pthen_ok. cbn [init bind pput pthen put fst snd separated]. reflexivity.
  - apply bind_ok in E. destruct E as (o & E1 & E). injection E as <-. rewrite (pput_esc _ _ _ E1). reflexivity.
  - apply bind_ok in E. destruct E as (d & E1 & E). apply bind_ok in E. destruct E as (x & E2 & E). injection E as <-.
    rewrite E1, E2. reflexivity.
  - apply bind_ok in E. destruct E as (l & E0 & E). apply bind_ok in E. destruct E as (d & E1 & E).
    apply bind_ok in E. destruct E as (x & E2 & E). injection E as <-.
    rewrite E0, (pput_esc _ _ _ E1), (pput_esc _ _ _ E2). cbn [bind pput pthen put fst snd separated]. reflexivity.
  - apply bind_ok in E. destruct E as (n & E1 & E). injection E as <-. rewrite E1. reflexivity.
  - apply bind_ok in E. destruct E as (o & E1 & E). injection E as <-. rewrite (pput_esc _ _ _ E1). reflexivity.
  - apply bind_ok in E. destruct E as (d & E1 & E). apply bind_ok in E. destruct E as (x & E2 & E). injection E as <-.
    rewrite (pput_esc _ _ _ E1), (pput_esc _ _ _ E2). cbn [pthen put fst snd separated map]. reflexivity.
  - apply bind_ok in E. destruct E as (o & E1 & E). injection E as <-. rewrite (pput_ok _ _ E1). reflexivity.
Qed.

Lemma small_number m : m < 10 -> number 16 m = number 10 m.
Proof.
  intros H. unfold number. cbn [number_loop]. rewrite (proj2 (N.ltb_lt m 16)) by lia. rewrite (proj2 (N.ltb_lt m 10)) by lia.
  reflexivity.
Qed.
Lemma base_number base n : base = 10 \/ base = 16 -> base = 10 \/ n < 10 -> number base n = number 10 n.
Proof. intros [-> | ->] [H | H]; try reflexivity; try discriminate. now apply small_number. Qed.

Lemma row_reads lax sep v2enc dst rsp ic base v f fs : separator_ok sep = true -> sep <> quote ->
  let s := csv_rows sep v2enc dst rsp in
  frame_fields s ic v f = Ok fs -> prints_well lax sep ic v f -> readable_row lax sep fs ->
  base = 10 \/ base = 16 -> (base = 10 \/ ~ has_number f) ->
  reads_row lax sep (row_parts s base f fs) fs.
Proof.
  intros Hok Hq s E W R Hbs Hb.
  pose proof (separator_fine sep Hok Hq) as Hs.
  assert (Num : forall last g, Forall numeral g -> reads_as lax sep last g g).
  { intros last g Hg. apply reads_plain; [exact Hs|]. now apply numeral_plain. }
  assert (Esc : forall last g, readable_field lax sep last g -> reads_as lax sep last (escape sep quote g) g).
  { intros last g Hg. now apply reads_escape. }
  assert (N10 : forall n, Forall numeral (number 10 n)) by (intros; apply number_numeral; lia).
  unfold prints_well in W. unfold has_number in Hb. unfold frame_fields in E. unfold row_parts.
  change (st_esc (rs_st s)) with (escape sep quote).
  destruct (f_body f) as [b|u|e|t|t|c|c|p|c|p].
  - injection E as <-. constructor. now apply reads_plain.
  - apply bind_ok in E. destruct E as (o & _ & E). injection E as <-. rewrite W. cbn [readable_row] in R.
    apply read2; [apply Esc; tauto|]. exact (Num true (B "0x") ox_numeral).
  -
    apply bind_ok in E. destruct E as (o & _ & E). apply bind_ok in E. destruct E as (m & E2 & E). injection E as <-.
    destruct (en_method e) as [m'|]; [|discriminate]. cbn [init] in E2. injection E2 as <-. rewrite W. cbn [readable_row] in R.
    rewrite (base_number base m' Hbs) by (destruct Hb as [Hb | Hb]; [now left|right; apply N.lt_nge; eauto]).
    apply read3; [apply Esc; tauto|apply Num, N10|]. exact (Num true (B "0x") ox_numeral).
  - apply bind_ok in E. destruct E as (o & _ & E). injection E as <-. cbn [readable_row map] in R |- *.
    constructor. now apply Esc.
  -
    apply bind_ok in E. destruct E as (d & _ & E). apply bind_ok in E. destruct E as (x & _ & E). injection E as <-.
    cbn [readable_row] in R.
    rewrite (base_number base _ Hbs) by (destruct Hb as [Hb | Hb]; [now left|right; now apply N.lt_nge]).
    apply read3; [apply Num, N10|apply Esc; tauto|apply Esc; tauto].
  - apply bind_ok in E. destruct E as (l & E0 & E). apply bind_ok in E. destruct E as (d & E1 & E).
    apply bind_ok in E. destruct E as (x & E2 & E). injection E as <-.
    cbn [readable_row] in R. destruct (co_lang c) as [l'|]; [|discriminate]. cbn [init] in E0. injection E0 as <-.
    apply read3; [|apply Esc; tauto|apply Esc; tauto]. apply reads_plain; [exact Hs|]. now apply W.
  -
    apply bind_ok in E. destruct E as (n & E1 & E). injection E as <-. rewrite E1.
    rewrite N.mod_small by (now apply W).
    rewrite (base_number base n Hbs) by (destruct Hb as [Hb | Hb]; [now left|right; apply N.lt_nge; eauto]). constructor. apply Num, N10.
  - apply bind_ok in E. destruct E as (o & _ & E). injection E as <-. cbn [readable_row] in R.
    apply read3; [apply Esc; tauto|apply Num, N10|]. apply Num. apply (hex_numeral (po_counter p)).
  - apply bind_ok in E. destruct E as (d & E1 & E). apply bind_ok in E. destruct E as (x & E2 & E). injection E as <-.
    cbn [readable_row] in R. cbn [map]. apply read2; apply Esc; tauto.
  - apply bind_ok in E. destruct E as (o & E1 & E). injection E as <-. constructor. apply reads_plain; [exact Hs|].
    now apply (proj2 W).
Qed.

Lemma well_dispatch lax sep ic v f : prints_well lax sep ic v f ->
  (forall c, f_body f = BCloud c -> v <> V24) /\ (forall p, f_body f = BPriv p -> v <> V24).
Proof. unfold prints_well. destruct (f_body f); (split; intros ? Ed; try discriminate Ed); tauto. Qed.

(** ** Lines *)
Lemma print_lines_cons s ic base v f l out : print_row s ic base v f = (out, Ok tt) ->
  print_items s ic base (frame_lines ((v, f) :: l)) =
  match print_items s ic (base_after base f) (frame_lines l) with
  | (q, b) => ((out ++ [newline] ++ fst q, snd q), b)
  end.
Proof.
  intros E. unfold frame_lines. cbn [flat_map app fst snd]. fold (frame_lines l).
  cbn [print_items print_item]. rewrite E. cbn [snd fst put].
  destruct (print_items s ic (base_after base f) (frame_lines l)) as [q b]. rewrite !pthen_ok. reflexivity.
Qed.

Lemma rows_read lax sep v2enc dst rsp ic : separator_ok sep = true -> sep <> quote ->
  let s := csv_rows sep v2enc dst rsp in
  forall l base fss, 
  Forall2 (fun vf fs => frame_fields s ic (fst vf) (snd vf) = Ok fs /\ prints_well lax sep ic (fst vf) (snd vf) /\
                        readable_row lax sep fs) l fss ->
  base = 10 \/ base = 16 -> (base = 10 \/ forall vf, In vf l -> ~ has_number (snd vf)) ->
  (forall pre vf post, l = pre ++ vf :: post -> has_number (snd vf) -> forall x, In x pre -> ~ is_popm (snd x)) ->
  exists out, fst (print_items s ic base (frame_lines l)) = (out, Ok tt) /\ read_rows lax sep (length l) out = Some fss.
Proof.
  intros Hok Hq s l base fss H. revert base.
  induction H as [|[v f] fs l fss (E & W & R) H IH]; intros base Hbs Hb Hn.
  - exists []. split; reflexivity.
  - cbn [fst snd] in *. destruct (well_dispatch _ _ _ _ _ W) as (D1 & D2).
    pose proof (row_printed s ic base v f fs E D1 D2) as P.
    destruct (IH (base_after base f)) as (out & E1 & E2).
    + unfold base_after. destruct (f_body f); auto.
    + unfold base_after. destruct Hb as [-> | Hb].
      * destruct (f_body f) eqn:B; auto. right. intros vf Hin Hnum.
        apply in_split in Hin. destruct Hin as (l1 & l2 & ->).
        apply (Hn ((v, f) :: l1) vf l2 eq_refl Hnum (v, f) (or_introl eq_refl)).
        unfold is_popm. cbn [snd]. now rewrite B.
      * right. intros vf Hin. apply Hb. now right.
    + intros pre vf post -> Hnum x Hx. apply (Hn ((v, f) :: pre) vf post eq_refl Hnum x). now right.
    + rewrite (print_lines_cons _ _ _ _ _ _ _ P).
      destruct (print_items s ic (base_after base f) (frame_lines l)) as [q b]. cbn [fst snd] in E1 |- *. subst q. cbn [fst snd].
      eexists. split; [reflexivity|]. cbn [length read_rows].
      rewrite (reads_row_read lax sep (row_parts s base f fs) fs).
      * now rewrite E2.
      * apply (row_reads lax sep v2enc dst rsp ic base v f fs); auto.
        destruct Hb as [Hb | Hb]; [now left|]. right. apply (Hb (v, f)). now left.
Qed.

(** ** The base *)
Lemma items_base s ic l : forall base out b, print_items s ic base l = ((out, Ok tt), b) -> b = left_in base l.
Proof.
  induction l as [|i l IH]; intros base out b; cbn [print_items].
  - intros E. injection E as _ <-. reflexivity.
  - destruct (print_item s ic base i) as [p b1] eqn:Ei. destruct p as [o r]. cbn [snd].
    destruct r as [[]| | |]; try discriminate.
    destruct (print_items s ic b1 l) as [q b'] eqn:El. rewrite pthen_ok. intros E. injection E as E1 E2 <-.
    destruct q as [qo qr]. cbn [snd] in E2. subst qr. apply IH in El. subst b'.
    unfold left_in. cbn [fold_left]. f_equal.
    destruct i; cbn [print_item] in Ei; try (inversion Ei; subst; reflexivity).
    injection Ei as E <-. rewrite E. cbn [snd]. reflexivity.
Qed.
Lemma print_items_app s ic l m : forall base out b, print_items s ic base l = ((out, Ok tt), b) ->
  print_items s ic base (l ++ m) = match print_items s ic b m with (q, b') => (pthen (out, Ok tt) q, b') end.
Proof.
  induction l as [|i l IH]; intros base out b; cbn [print_items app].
  - intros E. injection E as <- <-. destruct (print_items s ic base m) as [[o r] b']. reflexivity.
  - destruct (print_item s ic base i) as [p b1] eqn:Ei. destruct p as [o r]. cbn [snd].
    destruct r as [[]| | |]; try discriminate.
    destruct (print_items s ic b1 l) as [q b'] eqn:El. rewrite pthen_ok. intros E. injection E as E1 E2 <-.
    destruct q as [qo qr]. cbn [snd fst] in E1, E2. subst qr out. rewrite (IH _ _ _ El).
    destruct (print_items s ic b' m) as [q2 b2]. rewrite !pthen_ok. cbn [fst snd]. now rewrite app_assoc.
Qed.

Lemma count_row s ic base v f c n : f_body f = BCount c -> counter_value c = Ok n ->
  print_row s ic base v f = (number base (n mod 2 ^ 32), Ok tt).
Proof.
  intros E1 E2. unfold print_row, frame_row. rewrite E1. destruct v; rewrite E2; reflexivity.
Qed.

Lemma hex_value m n : as_decimal (number 16 m) = Some n -> n <= m /\ (10 <= m -> n < m).
Proof.
  intros E. assert (D : number 16 m <> []) by apply number_loop_not_nil.
  assert (E' : decimal_value 0 (number 16 m) = Some n).
  { unfold as_decimal in E. destruct (number 16 m); [easy|exact E]. }
  apply hex_smaller in E'; [|lia]. split; [tauto|]. intros H10.
  destruct (N.ltb_spec n m) as [|G]; [assumption|]. assert (n = m) by lia. subst n. now apply hex_wrong in E.
Qed.
Lemma count_decimal base n : base = 10 \/ base = 16 ->
  (as_decimal (number base (n mod 2 ^ 32)) = Some n <-> n < 2 ^ 32 /\ (base = 10 \/ n < 10)).
Proof.
  intros Hb. pose proof (N.mod_lt n (2 ^ 32) ltac:(lia)) as L. pose proof (N.mod_le n (2 ^ 32) ltac:(lia)) as L2.
  assert (P : 10 < 2 ^ 32) by reflexivity. set (T := 2 ^ 32) in *.
  split.
  - intros E. destruct Hb as [-> | ->].
    + rewrite as_decimal_number in E. injection E as E. split; [lia|auto].
    + apply hex_value in E. lia.
  - intros (H1 & H2). rewrite N.mod_small by assumption. destruct Hb as [-> | ->]; [apply as_decimal_number|].
    destruct H2 as [H2 | H2]; [discriminate|]. rewrite small_number by assumption. apply as_decimal_number.
Qed.

(** ** Binary data *)
Lemma plain_prefix lax sep l : forall a x fs rest, csv_read lax sep (InPlain a) l = Some (x :: fs, rest) ->
  exists p q, x = a ++ p /\ l = p ++ q /\ ~ In sep p /\ ~ In lf p.
Proof.
  induction l as [|c r IH]; intros a x fs rest; cbn [csv_read].
  - intros E. injection E as <- _ _. exists [], []. rewrite app_nil_r. repeat split; auto.
  - destruct (N.eqb_spec c sep) as [->|Hs].
    { destruct (csv_read lax sep AtStart r) as [[fs' rest']|]; [|discriminate]. intros E. injection E as <- _ _.
      exists [], (sep :: r). rewrite app_nil_r. repeat split; auto. }
    destruct (N.eqb_spec c lf) as [->|Hl].
    { intros E. injection E as <- _ _. exists [], (lf :: r). rewrite app_nil_r. repeat split; auto. }
    destruct (_ && _).
    { intros E. injection E as <- _ _. exists [], (c :: r). rewrite app_nil_r. repeat split; auto. }
    destruct (_ && _); [discriminate|].
    intros E. apply IH in E. destruct E as (p & q & -> & -> & H1 & H2).
    exists (c :: p), q. rewrite <- app_assoc. repeat split; auto; intros [H | H]; auto.
Qed.

Lemma raw_length l : length (raw_bytes l) = (2 * length l)%nat.
Proof. unfold raw_bytes. induction l; cbn [flat_map app length]; lia. Qed.
Lemma hex_length l : Forall (fun x => x < 256) l -> length (hex_of l) = (2 * length l)%nat.
Proof.
  unfold hex_of. induction 1 as [|x l Hx H IH]; [reflexivity|]. cbn [flat_map length]. rewrite app_length, IH.
  assert (length (width2 (number 16 x)) = 2%nat); [|lia]. clear - Hx.
  unfold number. assert (L : N.log2 x < 8) by (destruct (N.eq_dec x 0) as [-> | Z]; [reflexivity|]; apply N.log2_lt_pow2; lia).
  cbn [number_loop]. destruct (N.ltb_spec x 16); [reflexivity|].
  destruct (N.to_nat (N.log2 x)) as [|k] eqn:Ek.
  - assert (N.log2 16 <= N.log2 x) by now apply N.log2_le_mono. change (N.log2 16) with 4 in *. lia.
  - cbn [number_loop]. rewrite (proj2 (N.ltb_lt (x / 16) 16)) by (apply N.div_lt_upper_bound; lia). reflexivity.
Qed.
Lemma pair_not_hex x : x < 256 -> width2 (number 16 x) <> [48; x].
Proof.
  intros Hx. unfold number. cbn [number_loop]. destruct (N.ltb_spec x 16) as [H | H].
  - cbn [width2]. unfold digit. destruct (x <? 10); intros E; apply (f_equal (fun l => nth 1 l 0)) in E; cbn [nth] in E; lia.
  - destruct (N.to_nat (N.log2 x)) as [|k] eqn:Ek.
    { assert (N.log2 16 <= N.log2 x) by now apply N.log2_le_mono. change (N.log2 16) with 4 in *. lia. }
    cbn [number_loop]. rewrite (proj2 (N.ltb_lt (x / 16) 16)) by (apply N.div_lt_upper_bound; lia).
    cbn [app width2]. unfold digit.
    assert (1 <= x / 16) by (apply N.div_le_lower_bound; lia).
    destruct (x / 16 <? 10); intros E; apply (f_equal (fun l => nth 0 l 0)) in E; cbn [nth] in E; lia.
Qed.
Lemma width2_two x : x < 256 -> length (width2 (number 16 x)) = 2%nat.
Proof. intros H. pose proof (hex_length [x] (Forall_cons (P := fun y => y < 256) x H (Forall_nil _))) as E. unfold hex_of in E. cbn [flat_map] in E. rewrite app_nil_r in E. exact E. Qed.
Lemma raw_not_hex l : Forall (fun x => x < 256) l -> l <> [] -> raw_bytes l <> hex_of l.
Proof.
  intros H Hn E. destruct l as [|x l]; [easy|]. inversion H; subst.
  unfold raw_bytes, hex_of in E. cbn [flat_map] in E.
  pose proof (width2_two x ltac:(assumption)) as L. pose proof (pair_not_hex x ltac:(assumption)) as P.
  destruct (width2 (number 16 x)) as [|a [|b [|]]]; try discriminate L.
  cbn [app] in E. injection E as <- <- _. now apply P.
Qed.

Lemma ox_read lax sep d rest fs r : separator_ok sep = true -> Forall (fun x => x < 256) d -> d <> [] ->
  csv_read lax sep AtStart ((B "0x" ++ raw_bytes d) ++ lf :: rest) <> Some ((B "0x" ++ hex_of d) :: fs, r).
Proof.
  intros Hok Hd Hn E. rewrite start_plain in E by discriminate. apply plain_prefix in E.
  destruct E as (p & q & E1 & E2 & _). cbn [app] in E1. subst p.
  rewrite <- !app_assoc in E2. apply app_inv_head in E2.
  assert (L : length (raw_bytes d) = length (hex_of d)) by (rewrite raw_length, hex_length; auto).
  assert (E3 : firstn (length (raw_bytes d)) (raw_bytes d ++ lf :: rest) = firstn (length (raw_bytes d)) (hex_of d ++ q)) by now rewrite E2.
  rewrite firstn_app, Nat.sub_diag, firstn_O, app_nil_r, firstn_all in E3.
  rewrite L, firstn_app, Nat.sub_diag, firstn_O, app_nil_r, firstn_all in E3.
  now apply raw_not_hex in E3.
Qed.

Lemma reads_then lax sep p f t : reads_as lax sep false p f ->
  csv_read lax sep AtStart (p ++ sep :: t) =
  match csv_read lax sep AtStart t with Some (fs, rest) => Some (f :: fs, rest) | None => None end.
Proof. intros H. apply (H t). Qed.

Lemma ufid_unread lax sep v2enc dst rsp ic base v f u o : separator_ok sep = true -> sep <> quote ->
  let s := csv_rows sep v2enc dst rsp in
  f_body f = BUfid u -> uf_id u <> [] -> Forall (fun x => x < 256) (uf_id u) ->
  frame_fields s ic v f = Ok [o; B "0x" ++ hex_of (uf_id u)] -> readable_field lax sep false o ->
  exists out, print_row s ic base v f = (out, Ok tt) /\
    forall rest r, read_record lax sep (out ++ [newline] ++ rest) <> Some ([o; B "0x" ++ hex_of (uf_id u)], r).
Proof.
  intros Hok Hq s Eb Hn Hd E R. pose proof (separator_fine sep Hok Hq) as Hs.
  rewrite (row_printed s ic base v f _ E) by (rewrite Eb; discriminate).
  unfold row_parts. rewrite Eb. eexists. split; [reflexivity|]. intros rest r. unfold read_record.
  change (st_esc (rs_st s)) with (escape sep quote). change (st_sep (rs_st s)) with sep.
  cbn [separated]. rewrite <- app_assoc. cbn [app]. rewrite (reads_then lax sep _ o) by now apply reads_escape.
  intros E2. destruct (csv_read _ _ _ _) as [[fs rest']|] eqn:E3; [|discriminate].
  injection E2 as E2 <-. rewrite E2 in E3. now apply ox_read in E3.
Qed.
Lemma encr_unread lax sep v2enc dst rsp ic base v f e o m : separator_ok sep = true -> sep <> quote ->
  let s := csv_rows sep v2enc dst rsp in
  f_body f = BEncr e -> en_data e <> [] -> Forall (fun x => x < 256) (en_data e) -> 2 <= base -> base <= 16 ->
  frame_fields s ic v f = Ok [o; m; B "0x" ++ hex_of (en_data e)] -> readable_field lax sep false o ->
  exists out, print_row s ic base v f = (out, Ok tt) /\
    forall rest r, read_record lax sep (out ++ [newline] ++ rest) <> Some ([o; m; B "0x" ++ hex_of (en_data e)], r).
Proof.
  intros Hok Hq s Eb Hn Hd Hb1 Hb2 E R. pose proof (separator_fine sep Hok Hq) as Hs.
  rewrite (row_printed s ic base v f _ E) by (rewrite Eb; discriminate).
  unfold row_parts. rewrite Eb. eexists. split; [reflexivity|]. intros rest r. unfold read_record.
  change (st_esc (rs_st s)) with (escape sep quote). change (st_sep (rs_st s)) with sep.
  destruct (en_method e) as [m'|] eqn:Em.
  2:{ unfold frame_fields in E. rewrite Eb, Em in E. apply bind_ok in E. destruct E as (? & _ & E). discriminate. }
  cbn [separated]. rewrite <- !app_assoc. cbn [app].
  rewrite (reads_then lax sep _ o) by now apply reads_escape.
  rewrite (reads_then lax sep _ (number base m')).
  2:{ apply reads_plain; [exact Hs|]. apply numeral_plain; [exact Hok|]. now apply number_numeral. }
  intros E2. change (48 :: 120 :: raw_bytes (en_data e) ++ newline :: rest) with ((B "0x" ++ raw_bytes (en_data e)) ++ lf :: rest) in E2.
  destruct (csv_read _ _ _ _) as [[fs rest']|] eqn:E3; [|discriminate].
  injection E2 as _ E2 <-. rewrite E2 in E3. now apply ox_read in E3.
Qed.

(** ** What is not escaped *)
Lemma bare_unread lax sep x t fs r : hd_error x <> Some dquote -> x <> [] -> In sep x \/ In lf x ->
  csv_read lax sep AtStart (x ++ t) <> Some (x :: fs, r).
Proof.
  intros H1 H0 H2 E. rewrite start_plain in E.
  - apply plain_prefix in E. destruct E as (p & q & E1 & _ & E3 & E4). cbn [app] in E1. subst p. tauto.
  - destruct x; [easy|exact H1].
Qed.

(** ** TDF *)
Lemma tdf_run sep f t : tdf_field sep f -> forall a, tdf_read sep a (f ++ t) = tdf_read sep (a ++ f) t.
Proof.
  intros (H1 & H2). induction f as [|c r IH]; intros a; [now rewrite app_nil_r|].
  cbn [app tdf_read]. destruct (N.eqb_spec c newline) as [->|]; [elim H2; now left|].
  destruct (N.eqb_spec c sep) as [->|]; [elim H1; now left|].
  rewrite IH; [now rewrite <- app_assoc| |]; intros G; [apply H1|apply H2]; now right.
Qed.
Lemma tdf_row sep fs rest : sep <> newline -> fs <> [] -> Forall (tdf_field sep) fs ->
  tdf_read sep [] (separated sep fs ++ [newline] ++ rest) = (fs, rest).
Proof.
  intros Hs Hn H. induction H as [|f fs Hf H IH]; [easy|]. clear Hn. destruct fs as [|g fs].
  - cbn [separated]. rewrite tdf_run by exact Hf. reflexivity.
  - change (separated sep (f :: g :: fs)) with (f ++ [sep] ++ separated sep (g :: fs)).
    rewrite <- !app_assoc. rewrite tdf_run by exact Hf. cbn [app tdf_read].
    rewrite (proj2 (N.eqb_neq sep newline)) by exact Hs. rewrite N.eqb_refl.
    specialize (IH ltac:(discriminate)). cbn [app] in IH. rewrite IH. reflexivity.
Qed.

Lemma tdf_parts ascii v2enc dst rsp ic base v f fs :
  let s := tdf_rows ascii v2enc dst rsp in
  frame_fields s ic v f = Ok fs -> tdf_well v f -> base = 10 \/ base = 16 -> (base = 10 \/ ~ has_number f) ->
  row_parts s base f fs = fs.
Proof.
  intros s E W Hbs Hb. unfold tdf_well in W. unfold has_number in Hb. unfold frame_fields in E. unfold row_parts.
  change (st_esc (rs_st s)) with (fun x : bytes => x).
  destruct (f_body f) as [b|u|e|t|t|c|c|p|c|p].
  - reflexivity.
  - apply bind_ok in E. destruct E as (o & _ & E). injection E as <-. now rewrite W.
  -
    apply bind_ok in E. destruct E as (o & _ & E). apply bind_ok in E. destruct E as (m & E2 & E). injection E as <-.
    destruct (en_method e) as [m'|]; [|discriminate]. cbn [init] in E2. injection E2 as <-. rewrite W.
    now rewrite (base_number base m' Hbs) by (destruct Hb as [Hb | Hb]; [now left|right; apply N.lt_nge; eauto]).
  - apply bind_ok in E. destruct E as (o & _ & E). now injection E as <-.
  -
    apply bind_ok in E. destruct E as (d & _ & E). apply bind_ok in E. destruct E as (x & _ & E). injection E as <-.
    now rewrite (base_number base _ Hbs) by (destruct Hb as [Hb | Hb]; [now left|right; now apply N.lt_nge]).
  - apply bind_ok in E. destruct E as (l & E0 & E). apply bind_ok in E. destruct E as (d & E1 & E).
    apply bind_ok in E. destruct E as (x & E2 & E). now injection E as <-.
  -
    apply bind_ok in E. destruct E as (n & E1 & E). injection E as <-. rewrite E1.
    rewrite N.mod_small by (now apply W).
    now rewrite (base_number base n Hbs) by (destruct Hb as [Hb | Hb]; [now left|right; apply N.lt_nge; eauto]).
  - apply bind_ok in E. destruct E as (o & _ & E). now injection E as <-.
  - apply bind_ok in E. destruct E as (d & E1 & E). apply bind_ok in E. destruct E as (x & E2 & E). now injection E as <-.
  - reflexivity.
Qed.
Lemma fields_some s ic v f fs : frame_fields s ic v f = Ok fs -> fs <> [].
Proof.
  unfold frame_fields. destruct (f_body f); intros E;
    repeat (apply bind_ok in E; let H := fresh in destruct E as (? & H & E); clear H); injection E as <-; discriminate.
Qed.
Lemma tdf_dispatch v f : tdf_well v f ->
  (forall c, f_body f = BCloud c -> v <> V24) /\ (forall p, f_body f = BPriv p -> v <> V24).
Proof. unfold tdf_well. destruct (f_body f); (split; intros ? Ed; try discriminate Ed); tauto. Qed.

Lemma tdf_rows_read ascii v2enc dst rsp ic :
  let s := tdf_rows ascii v2enc dst rsp in
  let sep := st_sep (rs_st s) in
  forall l base fss,
  Forall2 (fun vf fs => frame_fields s ic (fst vf) (snd vf) = Ok fs /\ tdf_well (fst vf) (snd vf) /\
                        Forall (tdf_field sep) fs) l fss ->
  base = 10 \/ base = 16 -> (base = 10 \/ forall vf, In vf l -> ~ has_number (snd vf)) ->
  (forall pre vf post, l = pre ++ vf :: post -> has_number (snd vf) -> forall x, In x pre -> ~ is_popm (snd x)) ->
  exists out, fst (print_items s ic base (frame_lines l)) = (out, Ok tt) /\ tdf_read_rows sep (length l) out = Some fss.
Proof.
  intros s sep l base fss H. revert base.
  assert (Hsep : sep <> newline) by (destruct ascii; discriminate).
  induction H as [|[v f] fs l fss (E & W & R) H IH]; intros base Hbs Hb Hn.
  - exists []. split; reflexivity.
  - cbn [fst snd] in *. destruct (tdf_dispatch _ _ W) as (D1 & D2).
    pose proof (row_printed s ic base v f fs E D1 D2) as P. fold sep in P.
    destruct (IH (base_after base f)) as (out & E1 & E2).
    + unfold base_after. destruct (f_body f); auto.
    + unfold base_after. destruct Hb as [-> | Hb].
      * destruct (f_body f) eqn:B; auto. right. intros vf Hin Hnum.
        apply in_split in Hin. destruct Hin as (l1 & l2 & ->).
        apply (Hn ((v, f) :: l1) vf l2 eq_refl Hnum (v, f) (or_introl eq_refl)).
        unfold is_popm. cbn [snd]. now rewrite B.
      * right. intros vf Hin. apply Hb. now right.
    + intros pre vf post -> Hnum x Hx. apply (Hn ((v, f) :: pre) vf post eq_refl Hnum x). now right.
    + rewrite (print_lines_cons _ _ _ _ _ _ _ P).
      destruct (print_items s ic (base_after base f) (frame_lines l)) as [q b]. cbn [fst snd] in E1 |- *. subst q. cbn [fst snd].
      assert (P2 : row_parts s base f fs = fs).
      { apply (tdf_parts ascii v2enc dst rsp ic base v f fs); auto.
        destruct Hb as [Hb | Hb]; [now left|]. right. apply (Hb (v, f)). now left. }
      rewrite P2. eexists. split; [reflexivity|]. cbn [length tdf_read_rows].
      rewrite tdf_row; [now rewrite E2|exact Hsep|now apply (fields_some _ _ _ _ _ E)|exact R].
Qed.

(** A field that is read has neither separator nor line feed in it. *)
Lemma tdf_clean sep l : forall a fs rest, tdf_read sep a l = (fs, rest) -> tdf_field sep a -> Forall (tdf_field sep) fs.
Proof.
  induction l as [|c r IH]; intros a fs rest; cbn [tdf_read].
  - intros E Ha. injection E as <- _. now constructor.
  - destruct (N.eqb_spec c newline) as [->|Hl].
    { intros E Ha. injection E as <- _. now constructor. }
    destruct (N.eqb_spec c sep) as [->|Hs].
    + destruct (tdf_read sep [] r) as [fs' rest'] eqn:E'. intros E Ha. injection E as <- _. constructor; [exact Ha|].
      apply (IH [] fs' rest' E'). split; intros [].
    + intros E (H1 & H2). apply IH in E; [exact E|].
      split; intros G; apply in_app_or in G; destruct G as [G | [G | []]]; auto.
Qed.

Lemma left_in_two l : forall b, b = 10 \/ b = 16 -> left_in b l = 10 \/ left_in b l = 16.
Proof.
  unfold left_in. induction l as [|i l IH]; intros b Hb; cbn [fold_left]; [exact Hb|]. apply IH.
  destruct i as [v f| | | |]; cbn [item_base]; auto. destruct (f_body f); auto.
Qed.
Lemma two_bases base : base = 10 \/ base = 16 -> 2 <= base /\ base <= 16.
Proof. lia. Qed.
Lemma pthen_fst p q x t : fst p = x ++ t -> exists t', fst (pthen p q) = x ++ t'.
Proof.
  destruct p as [a r]. cbn [fst]. intros ->. unfold pthen. cbn [fst snd].
  destruct r; cbn [fst]; eauto. exists (t ++ fst q). now rewrite <- app_assoc.
Qed.
Lemma bare_first s ic base v f x :
  (exists p, f_body f = BPriv p /\ v <> V24 /\ converted ic (pr_email p) E_ASCII E_UTF_8 NoFail = Ok x) \/
  (exists c l, f_body f = BComm c /\ co_lang c = Some l /\ takeN 3 l = x) \/
  (exists b, f_body f = BUnknown b /\ f_id f = x) ->
  exists t, fst (print_row s ic base v f) = x ++ t.
Proof.
  intros [(p & E1 & E2 & E3) | [(c & l & E1 & E2 & E3) | (b & E1 & E2)]]; unfold print_row, frame_row; rewrite E1.
  - exists []. rewrite E3, app_nil_r. destruct v; [reflexivity|reflexivity|now elim E2].
  - rewrite E2. cbn [init bind pput]. rewrite E3. destruct v; apply (pthen_fst _ _ x []); now rewrite app_nil_r.
  - exists []. rewrite E2, app_nil_r. destruct v; reflexivity.
Qed.
