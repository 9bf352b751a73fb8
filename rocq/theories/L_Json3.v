(** * Lemmas: texts that are not JSON. *)
From Verif Require Import Base M_Charset M_Payload M_Cloud M_Csv S_Csv L_Csv S_Json M_Json L_Json S_JsonTag L_Json2.

(** ** A scanner: where a text stands, or that no JSON text begins like that. *)
Inductive st := Out | Tok | In_ | Esc | After.
Definition step (s : st) (c : N) : option st :=
  match s with
  | Out => if is_ws c then Some Out else if c =? 34 then Some In_ else if c =? 92 then None
           else if existsb (N.eqb c) [123; 91; 44; 58] then Some Out
           else if existsb (N.eqb c) [125; 93] then Some After else Some Tok
  | Tok => if is_ws c then Some After else if existsb (N.eqb c) [34; 92] then None
           else if existsb (N.eqb c) [123; 91; 44; 58] then Some Out
           else if existsb (N.eqb c) [125; 93] then Some After else Some Tok
  | In_ => if c =? 34 then Some After else if c =? 92 then Some Esc else if c <? 32 then None else Some In_
  | Esc => if c <? 32 then None else Some In_
  | After => if is_ws c then Some After else if existsb (N.eqb c) [44; 58] then Some Out
             else if existsb (N.eqb c) [125; 93] then Some After else None
  end.
Fixpoint run (s : st) (l : bytes) : option st :=
  match l with
  | [] => Some s
  | c :: r => match step s c with Some s' => run s' r | None => None end
  end.
Lemma run_app s a b : run s (a ++ b) = match run s a with Some s' => run s' b | None => None end.
Proof. revert s. induction a as [|c a IH]; intros s; [reflexivity|]. cbn. destruct (step s c); auto. Qed.
Lemma run_app_to s s' a b : run s a = Some s' -> run s (a ++ b) = run s' b.
Proof. intros H. now rewrite run_app, H. Qed.

Lemma run_cons s s' c l : step s c = Some s' -> run s (c :: l) = run s' l.
Proof. intros H. cbn. now rewrite H. Qed.

Definition ended (s : st) : Prop := s = Tok \/ s = After.

Lemma run_ws_out w : forallb is_ws w = true -> run Out w = Some Out.
Proof. induction w as [|c w IH]; [reflexivity|]. cbn. intros H. apply Bool.andb_true_iff in H as [H1 H2]. rewrite H1. auto. Qed.
Lemma run_ws_after w : forallb is_ws w = true -> run After w = Some After.
Proof. induction w as [|c w IH]; [reflexivity|]. cbn. intros H. apply Bool.andb_true_iff in H as [H1 H2]. rewrite H1. auto. Qed.
Lemma run_ws_ended s w : ended s -> forallb is_ws w = true -> exists s', run s w = Some s' /\ ended s'.
Proof.
  intros [-> | ->] H; [|exists After; rewrite run_ws_after by assumption; unfold ended; auto].
  destruct w as [|c w]; [exists Tok; unfold ended; auto|]. cbn in *. apply Bool.andb_true_iff in H as [H1 H2]. rewrite H1.
  exists After. rewrite run_ws_after by assumption. unfold ended; auto.
Qed.

Lemma hex_plain c : hex_value c <> None -> step In_ c = Some In_.
Proof.
  unfold hex_value, step. intros H.
  destruct (N.eqb_spec c 34) as [-> | _]; [exfalso; now apply H|].
  destruct (N.eqb_spec c 92) as [-> | _]; [exfalso; now apply H|].
  destruct (N.ltb_spec c 32) as [L | _]; [|reflexivity]. exfalso. apply H.
  destruct (N.leb_spec 48 c); [lia|]. destruct (N.leb_spec 97 c); [lia|]. destruct (N.leb_spec 65 c); [lia|]. reflexivity.
Qed.
Lemma simple_escape_printable e x : simple_escape e = Some x -> 32 <= e.
Proof.
  unfold simple_escape. repeat match goal with |- context [e =? ?b] => destruct (N.eqb_spec e b); [subst e; intros; lia|] end. discriminate.
Qed.

Lemma chars_run l : forall s r, chars l = Some (s, r) -> exists w, l = w ++ r /\ run In_ w = Some After.
Proof.
  induction l as [l IH] using (well_founded_induction (Wf_nat.well_founded_ltof _ (@List.length N))). unfold Wf_nat.ltof in IH.
  intros s r H. destruct l as [|c l]; [discriminate|]. apply chars_inv in H.
  destruct H as [(-> & -> & ->) | [(-> & e & l1 & -> & [(-> & a & b & c' & d & l2 & s' & u & -> & E & _ & Ha & Hb & Hc & Hd) | (_ & x & s' & He & E & _)]) | (N1 & N2 & L & s' & E & _)]].
  - exists [34]. auto.
  - apply IH in E; [|cbn; lia]. destruct E as (w & -> & R). exists (92 :: 117 :: a :: b :: c' :: d :: w). split; [reflexivity|].
    rewrite (run_cons In_ Esc), (run_cons Esc In_) by reflexivity. now rewrite !(run_cons In_ In_) by now apply hex_plain.
  - apply IH in E; [|cbn; lia]. destruct E as (w & -> & R). exists (92 :: e :: w). split; [reflexivity|].
    rewrite (run_cons In_ Esc) by reflexivity. apply simple_escape_printable in He.
    rewrite (run_cons Esc In_); [assumption|]. cbn. destruct (N.ltb_spec e 32); [lia | reflexivity].
  - apply IH in E; [|cbn; lia]. destruct E as (w & -> & R). exists (c :: w). split; [reflexivity|].
    rewrite (run_cons In_ In_); [assumption|]. unfold step. rewrite (proj2 (N.eqb_neq _ _) N1), (proj2 (N.eqb_neq _ _) N2).
    destruct (N.ltb_spec c 32); [lia | reflexivity].
Qed.

Lemma tok_step s c : s = Out \/ s = Tok -> tok_char c = true -> step s c = Some Tok.
Proof.
  unfold tok_char. cbn [existsb]. intros Hs H.
  apply Bool.andb_true_iff in H as [H H3]. apply Bool.andb_true_iff in H as [H1 H2].
  apply Bool.negb_true_iff in H1, H3.
  repeat match goal with H : (_ || _) = false |- _ => apply Bool.orb_false_iff in H; destruct H as [? H] end.
  destruct Hs as [-> | ->]; unfold step; cbn [existsb]; rewrite H1;
  repeat match goal with H : (c =? _) = false |- _ => rewrite ?H; clear H end; reflexivity.
Qed.
Lemma tok_run w : w <> [] -> forallb tok_char w = true -> run Out w = Some Tok.
Proof.
  intros Hn W. assert (A : forall w, forallb tok_char w = true -> run Tok w = Some Tok).
  { clear. induction w as [|c w IH]; [reflexivity|]. cbn [forallb run]. intros H. apply Bool.andb_true_iff in H as [H1 H2].
    rewrite tok_step by auto. auto. }
  destruct w as [|c w]; [easy|]. cbn [forallb run] in *. apply Bool.andb_true_iff in W as [W1 W2]. rewrite tok_step by auto. auto.
Qed.

Lemma separators_step c : existsb (N.eqb c) [44; 58] = true -> forall s, ended s -> step s c = Some Out.
Proof.
  cbn [existsb]. intros H s Hs. repeat rewrite Bool.orb_true_iff in H. repeat rewrite N.eqb_eq in H.
  destruct H as [-> | [-> | H]]; [| |discriminate]; destruct Hs as [-> | ->]; reflexivity.
Qed.
Lemma closers_step c : c = 125 \/ c = 93 -> forall s, ended s -> step s c = Some After.
Proof. intros [-> | ->] s [-> | ->]; reflexivity. Qed.

Lemma reads f :
  (forall l v r, value f l = Some (v, r) -> exists w s, l = w ++ r /\ run Out w = Some s /\ ended s) /\
  (forall l v r, members f l = Some (v, r) -> exists w, l = w ++ r /\ run Out w = Some After) /\
  (forall l v r, elements f l = Some (v, r) -> exists w, l = w ++ r /\ run Out w = Some After).
Proof.
  induction f as [|f (IHv & IHm & IHe)]; [repeat split; discriminate|]. repeat split; intros l v r H.
  - apply value_inv in H. destruct H as (c & r0 & E0 & H).
    destruct (skip_ws_app l) as (w0 & El & W0). rewrite E0 in El. subst l. clear E0.
    destruct H as [(-> & d & r1 & E1 & H) | [(-> & d & r1 & E1 & H) | [(-> & s & E & _) | (_ & _ & _ & E)]]].
    + destruct H as [(-> & _ & ->) | (_ & ms & E & _)].
      * destruct (skip_ws_app r0) as (w1 & El & W1). rewrite E1 in El. subst r0.
        exists (w0 ++ 123 :: w1 ++ [125]), After. split; [rewrite <- !app_assoc; cbn; now rewrite <- app_assoc|].
        rewrite (run_app_to _ _ _ _ (run_ws_out _ W0)). rewrite (run_cons Out Out) by reflexivity.
        rewrite (run_app_to _ _ _ _ (run_ws_out _ W1)). split; [reflexivity | now right].
      * apply IHm in E. destruct E as (w1 & -> & R1). exists (w0 ++ 123 :: w1), After.
        split; [now rewrite <- app_assoc|]. rewrite (run_app_to _ _ _ _ (run_ws_out _ W0)). split; [assumption | now right].
    + destruct H as [(-> & _ & ->) | (_ & ms & E & _)].
      * destruct (skip_ws_app r0) as (w1 & El & W1). rewrite E1 in El. subst r0.
        exists (w0 ++ 91 :: w1 ++ [93]), After. split; [rewrite <- !app_assoc; cbn; now rewrite <- app_assoc|].
        rewrite (run_app_to _ _ _ _ (run_ws_out _ W0)). rewrite (run_cons Out Out) by reflexivity.
        rewrite (run_app_to _ _ _ _ (run_ws_out _ W1)). split; [reflexivity | now right].
      * apply IHe in E. destruct E as (w1 & -> & R1). exists (w0 ++ 91 :: w1), After.
        split; [now rewrite <- app_assoc|]. rewrite (run_app_to _ _ _ _ (run_ws_out _ W0)). split; [assumption | now right].
    + apply chars_run in E. destruct E as (w1 & -> & R1). exists (w0 ++ 34 :: w1), After.
      split; [now rewrite <- app_assoc|]. rewrite (run_app_to _ _ _ _ (run_ws_out _ W0)). split; [assumption | now right].
    + apply scalar_app in E. destruct E as (w1 & E & Nw & T & _). rewrite E. exists (w0 ++ w1), Tok.
      split; [now rewrite <- app_assoc|]. rewrite (run_app_to _ _ _ _ (run_ws_out _ W0)). split; [now apply tok_run | now left].
  - apply members_inv in H. destruct H as (r0 & k & r1 & r2 & x & r3 & e & r4 & E0 & E1 & E2 & E3 & E4 & H).
    destruct (skip_ws_app l) as (w0 & El & W0). rewrite E0 in El. subst l. clear E0.
    apply chars_run in E1. destruct E1 as (w1 & -> & R1).
    destruct (skip_ws_app r1) as (w2 & El & W2). rewrite E2 in El. subst r1. clear E2.
    apply IHv in E3. destruct E3 as (w3 & s3 & -> & R3 & D3).
    destruct (skip_ws_app r3) as (w4 & El & W4). rewrite E4 in El. subst r3. clear E4.
    destruct (run_ws_ended _ _ D3 W4) as (s4 & R4 & D4).
    assert (A : forall z, run Out (w0 ++ 34 :: w1 ++ w2 ++ 58 :: w3 ++ w4 ++ z) = run s4 z).
    { intros z. rewrite (run_app_to _ _ _ _ (run_ws_out _ W0)). rewrite (run_cons Out In_) by reflexivity.
      rewrite (run_app_to _ _ _ _ R1), (run_app_to _ _ _ _ (run_ws_after _ W2)). rewrite (run_cons After Out) by reflexivity.
      now rewrite (run_app_to _ _ _ _ R3), (run_app_to _ _ _ _ R4). }
    destruct H as [(-> & _ & ->) | (-> & ms' & E & _)].
    + exists (w0 ++ 34 :: w1 ++ w2 ++ 58 :: w3 ++ w4 ++ [125]). split.
      * repeat (rewrite <- ?app_assoc; cbn [app]). reflexivity.
      * rewrite A, (run_cons s4 After); [reflexivity | apply closers_step; auto].
    + apply IHm in E. destruct E as (w5 & -> & R5). exists (w0 ++ 34 :: w1 ++ w2 ++ 58 :: w3 ++ w4 ++ 44 :: w5). split.
      * repeat (rewrite <- ?app_assoc; cbn [app]). reflexivity.
      * rewrite A, (run_cons s4 Out); [assumption | apply separators_step; auto].
  - apply elements_inv in H. destruct H as (x & r3 & e & r4 & E3 & E4 & H).
    apply IHv in E3. destruct E3 as (w3 & s3 & -> & R3 & D3).
    destruct (skip_ws_app r3) as (w4 & El & W4). rewrite E4 in El. subst r3. clear E4.
    destruct (run_ws_ended _ _ D3 W4) as (s4 & R4 & D4).
    assert (A : forall z, run Out (w3 ++ w4 ++ z) = run s4 z).
    { intros z. now rewrite (run_app_to _ _ _ _ R3), (run_app_to _ _ _ _ R4). }
    destruct H as [(-> & _ & ->) | (-> & ms' & E & _)].
    + exists (w3 ++ w4 ++ [93]). split.
      * repeat (rewrite <- ?app_assoc; cbn [app]). reflexivity.
      * rewrite A, (run_cons s4 After); [reflexivity | apply closers_step; auto].
    + apply IHe in E. destruct E as (w5 & -> & R5). exists (w3 ++ w4 ++ 44 :: w5). split.
      * repeat (rewrite <- ?app_assoc; cbn [app]). reflexivity.
      * rewrite A, (run_cons s4 Out); [assumption | apply separators_step; auto].
Qed.

Lemma skip_ws_nil l : skip_ws l = [] -> forallb is_ws l = true.
Proof. destruct (skip_ws_app l) as (w & E & W). intros H. rewrite H, app_nil_r in E. now subst. Qed.

Lemma json_run l v : json_of l = Some v -> exists s, run Out l = Some s /\ ended s.
Proof.
  unfold json_of, next_value. destruct (value _ l) as [[v' r]|] eqn:E; [|discriminate].
  destruct (skip_ws r) eqn:Er; [|discriminate]. intros _. apply reads in E. destruct E as (w & s & -> & R & D).
  rewrite (run_app_to _ _ _ _ R). apply run_ws_ended; [assumption | now apply skip_ws_nil].
Qed.

Lemma not_json l : run Out l = None \/ run Out l = Some In_ -> json_of l = None.
Proof.
  intros H. destruct (json_of l) as [v|] eqn:E; [|reflexivity]. apply json_run in E. destruct E as (s & R & [-> | ->]); destruct H; congruence.
Qed.

(** ** What the scanner makes of printed texts. *)
Lemma shown_run v : wf v -> exists s, run Out (show v) = Some s /\ ended s.
Proof. intros W. apply json_of_show in W. now apply json_run in W. Qed.

Lemma number_run n : run Out (number 10 n) = Some Tok.
Proof.
  pose proof (number_is_number n) as (H1 & H2). apply tok_run.
  - intros E. now rewrite E in H1.
  - revert H2. generalize (number 10 n). induction b as [|c b IH]; [reflexivity|]. cbn [forallb]. intros H.
    apply Bool.andb_true_iff in H as [Ha Hb]. now rewrite in_number_tok, IH.
Qed.

Lemma printable_run s : printable s -> run In_ (jescape s) = Some In_.
Proof.
  induction 1 as [|c s Hc Hs IH]; [reflexivity|]. change (jescape (c :: s)) with (jescape_char c ++ jescape s).
  rewrite (run_app_to _ In_); [assumption|]. unfold jescape_char.
  repeat match goal with |- context [c =? ?b] => destruct (N.eqb_spec c b); [subst c; reflexivity|] end. cbn [orb run].
  unfold step. destruct (N.eqb_spec c 34); [contradiction|]. destruct (N.eqb_spec c 92); [contradiction|].
  destruct (N.ltb_spec c 32) as [L | _]; [|reflexivity]. destruct Hc as [Hc | Hc]; [lia|]. cbn in Hc. lia.
Qed.
Lemma plain_run s : plain s -> run In_ s = Some In_.
Proof. intros H. rewrite <- (escape_plain s H). now apply printable_run, plain_printable. Qed.

(** An unprintable text: refused, or cut at the NUL inside the string. *)
Lemma unprintable_run s rest : ~ printable s ->
  run In_ (c_str (jescape s ++ rest)) = None \/ run In_ (c_str (jescape s ++ rest)) = Some In_.
Proof.
  induction s as [|c s IH]; intros H; [exfalso; apply H; constructor|].
  change (jescape (c :: s)) with (jescape_char c ++ jescape s). rewrite <- app_assoc.
  assert (D : printable_char c \/ ~ printable_char c).
  { unfold printable_char. cbn. lia. }
  destruct D as [D | D].
  - assert (P : printable [c]) by (constructor; [assumption | constructor]).
    pose proof (printable_run _ P) as R. cbn [jescape flat_map] in R. rewrite app_nil_r in R.
    rewrite c_str_app_id; [|intros X; apply jescape_char_nul in X; subst c; destruct D as [D | D]; cbn in D; lia].
    rewrite (run_app_to _ _ _ _ R). apply IH. intros X. apply H. now constructor.
  - clear IH H. unfold printable_char in D. cbn in D. unfold jescape_char.
    repeat match goal with |- context [c =? ?b] => destruct (N.eqb_spec c b); [exfalso; lia|] end. cbn [orb app c_str].
    destruct (N.eqb_spec c 0) as [-> | N0]; [right; reflexivity|]. left. cbn [run]. unfold step.
    destruct (N.eqb_spec c 34); [lia|]. destruct (N.eqb_spec c 92); [lia|]. destruct (N.ltb_spec c 32); [reflexivity | lia].
Qed.

Lemma printable_char_dec c : {printable_char c} + {~ printable_char c}.
Proof.
  unfold printable_char. destruct (32 <=? c) eqn:E.
  - left. left. now apply N.leb_le.
  - destruct (in_dec N.eq_dec c [8; 9; 10; 12; 13]) as [H | H]; [left; now right|]. right.
    apply N.leb_gt in E. intros [X | X]; [lia | contradiction].
Qed.
Lemma printable_dec s : {printable s} + {~ printable s}.
Proof. apply Forall_dec, printable_char_dec. Qed.

(** ** Misprinted frames. *)
Lemma out_quote s (z : bytes) : In s [Out; Tok; After] -> run s (34 :: z) = None \/ (s = Out /\ run s (34 :: z) = run In_ z).
Proof. intros [<- | [<- | [<- | []]]]; cbn; auto. Qed.

Lemma out_run l s : In s [Out; Tok; After] -> ~ In 34 l ->
  run s l = None \/ exists s', run s l = Some s' /\ In s' [Out; Tok; After].
Proof.
  revert s. induction l as [|c l IH]; intros s Hs Hl; [right; exists s; split; [reflexivity | assumption]|]. cbn [run].
  assert (c <> 34 /\ ~ In 34 l) as (Nc & Hl') by (cbn in Hl; intuition congruence).
  destruct (step s c) as [s'|] eqn:E; [|now left]. apply IH; [|assumption].
  clear - E Hs Nc. destruct Hs as [<- | [<- | [<- | []]]]; unfold step in E; cbn [existsb] in E;
    rewrite ?(proj2 (N.eqb_neq _ _) Nc) in E; cbn [orb] in E;
    repeat match type of E with context [if ?b then _ else _] => destruct b end; try discriminate E; injection E as <-; cbn; auto.
Qed.

Lemma escape_out s st z : In st [Out; Tok; After] ->
  run st (jescape s ++ z) = None \/ exists s', run st (jescape s ++ z) = run s' z /\ In s' [Out; Tok; After].
Proof.
  revert st. induction s as [|c s IH]; intros st Hs; [right; exists st; split; [reflexivity | assumption]|].
  change (jescape (c :: s)) with (jescape_char c ++ jescape s). rewrite <- app_assoc.
  assert (D : (exists r, jescape_char c = 92 :: r) \/ (jescape_char c = [c] /\ c <> 34)).
  { unfold jescape_char. repeat match goal with |- context [c =? ?b] => destruct (N.eqb_spec c b); [left; eexists; reflexivity|] end. auto. }
  destruct D as [(r & ->) | (-> & Nc)].
  - left. cbn [app run]. destruct Hs as [<- | [<- | [<- | []]]]; reflexivity.
  - destruct (out_run [c] st Hs) as [R | (s' & R & H')]; [cbn; intuition congruence | |].
    + left. rewrite run_app, R. reflexivity.
    + rewrite (run_app_to _ _ _ _ R). now apply IH.
Qed.

Lemma start_run id size : plain id -> size < 2 ^ 31 -> run Out (frame_start id size) = Some Tok /\ ~ In 0 (frame_start id size).
Proof.
  intros P H. unfold frame_start. rewrite int_text_small by assumption. split.
  - rewrite (run_app_to _ In_) by reflexivity. rewrite (run_app_to _ _ _ _ (plain_run _ P)).
    rewrite (run_app_to _ Out) by reflexivity. apply number_run.
  - rewrite !in_app_iff. intros [X | [X | [X | X]]]; [cbn in X; lia | now apply plain_nul in P | cbn in X; lia | now apply number_nul in X].
Qed.

Definition refused (f : fview) : Prop :=
  run Out (c_str (json_frame V23 f)) = None \/ run Out (c_str (json_frame V23 f)) = Some In_.

Lemma misprinted_refused f : usual_frame f -> misprinted f -> refused f.
Proof.
  intros (U & U') M. unfold refused.
  destruct f as [id size | id size t | id size o | id size d t | size n | id size e r n | id size o tg | id size e | id size e];
    try contradiction; clear M; cbn [json_frame].
  - destruct U as (Hp & Hs). destruct (start_run id size Hp Hs) as (R & N0).
    rewrite c_str_id.
    2: { rewrite !in_app_iff. intros [X | [X | [X | X]]]; [now apply N0 | cbn in X; lia | now apply jescape_nul in X | cbn in X; lia]. }
    rewrite (run_app_to _ _ _ _ R), (run_app_to _ Out) by reflexivity.
    destruct (escape_out o Out (B """}")) as [E | (s' & E & H)]; [now left | now left |]. rewrite E.
    destruct H as [<- | [<- | [<- | []]]]; auto.
  - left. reflexivity.
  - destruct U as (Hp & Hs). left. rewrite c_str_app_id by (cbn; lia). rewrite (run_app_to _ In_) by reflexivity.
    rewrite c_str_app_id by now apply plain_nul. rewrite (run_app_to _ _ _ _ (plain_run _ Hp)).
    rewrite c_str_app_id by (cbn; lia). reflexivity.
Qed.

Lemma unprintable_refused f : usual_frame f -> ~ misprinted f -> Exists (fun s => ~ printable s) (frame_texts f) -> refused f.
Proof.
  intros (U & _) M E. unfold refused.
  destruct f as [id size | id size t | id size o | id size d t | size n | id size e r n | id size o tg | id size e | id size e];
    cbn [misprinted frame_texts] in M, E; try (exfalso; apply M; exact I); clear M;
    try (now inversion E);
    destruct U as (Hp & Hs); destruct (start_run id size Hp Hs) as (R & N0); cbn [json_frame];
    rewrite c_str_app_id by assumption; rewrite (run_app_to _ _ _ _ R);
    rewrite c_str_app_id by (cbn; lia); rewrite (run_app_to _ In_) by reflexivity.
  - inversion E as [? ? H | ? ? H]; subst; [|inversion H]. now apply unprintable_run.
  - assert (D : printable d \/ ~ printable d).
    { destruct (printable_dec d); auto. }
    destruct D as [D | D]; [|now apply unprintable_run].
    rewrite c_str_app_id by now apply escape_printable_nul. rewrite (run_app_to _ _ _ _ (printable_run _ D)).
    rewrite c_str_app_id by (cbn; lia). rewrite (run_app_to _ In_) by reflexivity.
    inversion E as [? ? H | ? ? H]; subst; [contradiction|]. inversion H as [? ? H' | ? ? H']; subst; [|inversion H']. now apply unprintable_run.
  - inversion E as [? ? H | ? ? H]; subst; [|inversion H]. now apply unprintable_run.
  - inversion E as [? ? H | ? ? H]; subst; [|inversion H]. now apply unprintable_run.
  - inversion E as [? ? H | ? ? H]; subst; [|inversion H]. now apply unprintable_run.
Qed.
