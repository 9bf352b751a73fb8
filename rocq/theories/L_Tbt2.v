(** * Proofs about the template parser: options and replacement parameters. *)
From Verif Require Import Base M_Charset M_Tbt S_Tbt L_Tbt.

(** ** Options, one at a time. *)
Definition option_ends (d : N) : Prop := d = 41 \/ d = 38.
Definition ender (l : list lexed) : Prop :=
  exists a b r, l = (a, AMP, b) :: r \/ l = (a, RPAREN, b) :: r.

(** [s] is scanned to [ts], which are parsed to [o]. *)
Definition reads_option (k : optclass) (s : bytes) (ts : list lexed) (o : opt) : Prop :=
  (forall d, option_ends d -> word_tokens s d ts) /\
  exists p, forall rest, ender rest -> parse_opt k (ts ++ rest) = PRes (o, p) rest.

Ltac ender_cases H := let a := fresh in let b := fresh in let r := fresh in
  destruct H as [a [b [r [-> | ->]]]].

Ltac reads_table :=
  match goal with
  | |- reads_option ?k ?s (toks ?s) ?o =>
      split;
      [ let d := fresh in let Hd := fresh in
        intros d Hd; unfold word_tokens; destruct Hd as [-> | ->]; word s
      | let t := eval vm_compute in (toks s) in change (toks s) with t;
        first [ exists false; let r := fresh in let H := fresh in intros r H; ender_cases H; reflexivity
              | exists true; let r := fresh in let H := fresh in intros r H; ender_cases H; reflexivity ] ]
  end.

Lemma tag_options_read : Forall (fun p => reads_option ForAacet (fst p) (toks (fst p)) (snd p)) tag_options.
Proof. unfold tag_options. repeat (constructor; [cbn [fst snd]; reads_table|]). constructor. Qed.
Lemma cap_options_read_tag : Forall (fun p => reads_option ForAacet (fst p) (toks (fst p)) (snd p)) the_cap_options.
Proof. unfold the_cap_options. repeat (constructor; [cbn [fst snd]; reads_table|]). constructor. Qed.
Lemma cap_options_read_file : Forall (fun p => reads_option ForFile (fst p) (toks (fst p)) (snd p)) the_cap_options.
Proof. unfold the_cap_options. repeat (constructor; [cbn [fst snd]; reads_table|]). constructor. Qed.
Lemma number_options_read : Forall (fun p => reads_option ForNumber (fst p) (toks (fst p)) (snd p)) number_options.
Proof. unfold number_options. repeat (constructor; [cbn [fst snd]; reads_table|]). constructor. Qed.

(** The text that replaces white space. *)
Lemma find_word_none : forall ws t, ~ In t (map fst ws) -> find_word ws t = None.
Proof.
  induction ws as [|[w x] ws IH]; intros t H; [reflexivity|]. cbn [find_word].
  destruct (bytes_eqb_spec w t) as [->|_]; [exfalso; apply H; left; reflexivity|].
  apply IH. intro K. apply H. right. exact K.
Qed.

Lemma escape_plain : forall t, existsb is_special t = false -> escape_literal t = t.
Proof.
  induction t as [|c t IH]; intro H; [reflexivity|]. cbn [existsb] in H. apply orb_false_iff in H.
  rewrite escape_cons, (proj1 H), IH by apply H. reflexivity.
Qed.
Lemma escape_special : forall t, existsb is_special t = true -> existsb is_special (escape_literal t) = true.
Proof.
  induction t as [|c t IH]; intro H; [discriminate H|]. rewrite escape_cons, existsb_app.
  cbn [existsb] in H. apply orb_true_iff in H. destruct H as [H | H].
  - rewrite H. cbn [existsb]. rewrite H. rewrite orb_true_r. reflexivity.
  - rewrite (IH H). apply orb_true_r.
Qed.

Lemma reserved_words : map fst parameter_words = reserved_values.
Proof. reflexivity. Qed.
Lemma reserved_plain : forallb (fun w => negb (existsb is_special w)) reserved_values = true.
Proof. vm_compute. reflexivity. Qed.

Lemma escape_not_reserved : forall t, ~ In t reserved_values -> find_word parameter_words (escape_literal t) = None.
Proof.
  intros t H. apply find_word_none. rewrite reserved_words. intro K.
  destruct (existsb is_special t) eqn:E.
  - apply escape_special in E. pose proof reserved_plain as F. rewrite forallb_forall in F.
    specialize (F _ K). rewrite E in F. discriminate F.
  - rewrite (escape_plain t E) in K. exact (H K).
Qed.

Lemma stops_ends : forall d s, option_ends d -> stops (d :: s).
Proof. intros d s [-> | ->]; apply stops_cons; reflexivity || discriminate. Qed.

Lemma scans_param_text : forall t d s ts e, literal_ok t -> no_equals t -> ~ In t reserved_values ->
  option_ends d -> scans Repl (d :: s) ts e ->
  scans Param (escape_literal t ++ d :: s) ((Param, PARAM_TEXT t, Repl) :: ts) e.
Proof.
  intros t d s ts e Ht He Hr Hd K.
  destruct (escape_nonempty t (proj1 Ht)) as [c [r E]].
  refine (scans_step _ _ _ _ (d :: s) _ _ _ _ K).
  - pose proof (match_escape t (d :: s) (stops_ends d s Hd)) as M.
    pose proof (escape_not_reserved t Hr) as F.
    pose proof (unescape_escape t) as U. rewrite (equals_escaped_id t He) in U.
    unfold lex1. rewrite E in *. change ((c :: r) ++ d :: s) with (c :: (r ++ d :: s)) in *.
    rewrite M, F, U. reflexivity.
  - rewrite E, app_length. cbn [List.length]. lia.
Qed.

Definition ws_tokens (t : bytes) : list lexed :=
  [(Repl, WS, Repl); (Repl, EQUAL, Param); (Param, PARAM_TEXT t, Repl)].

Lemma ws_read : forall k t, k <> ForNumber -> literal_ok t -> no_equals t -> ~ In t reserved_values ->
  reads_option k (B "ws=" ++ escape_literal t) (ws_tokens t) (OWs false (Some t)).
Proof.
  intros k t Hk Ht He Hr. split.
  - intros d Hd s ts' e K. rewrite <- app_assoc.
    change (B "ws=" ++ escape_literal t ++ d :: s) with (119 :: 115 :: 61 :: (escape_literal t ++ d :: s)).
    unfold ws_tokens. cbn [app].
    refine (scans_step _ _ _ _ (61 :: (escape_literal t ++ d :: s)) _ _ _ _ _);
      [reflexivity | cbn [List.length]; lia |].
    refine (scans_step _ _ _ _ (escape_literal t ++ d :: s) _ _ _ _ _);
      [reflexivity | cbn [List.length]; lia |].
    apply scans_param_text; assumption.
  - exists true. intros rest H. destruct k; [| |contradiction Hk; reflexivity]; ender_cases H; reflexivity.
Qed.

Lemma compress_ws_read : forall k t, k <> ForNumber -> literal_ok t -> no_equals t -> ~ In t reserved_values ->
  reads_option k (B "compressws=" ++ escape_literal t) ((Repl, COMPRESS_WS, Repl) :: ws_tokens t) (OWs true (Some t)).
Proof.
  intros k t Hk Ht He Hr. split.
  - intros d Hd s ts' e K. rewrite <- app_assoc.
    change (B "compressws=" ++ escape_literal t ++ d :: s)
      with (99 :: 111 :: 109 :: 112 :: 114 :: 101 :: 115 :: 115 :: 119 :: 115 :: 61 :: (escape_literal t ++ d :: s)).
    unfold ws_tokens. cbn [app].
    refine (scans_step _ _ _ _ (119 :: 115 :: 61 :: (escape_literal t ++ d :: s)) _ _ _ _ _);
      [reflexivity | cbn [List.length]; lia |].
    refine (scans_step _ _ _ _ (61 :: (escape_literal t ++ d :: s)) _ _ _ _ _);
      [reflexivity | cbn [List.length]; lia |].
    refine (scans_step _ _ _ _ (escape_literal t ++ d :: s) _ _ _ _ _);
      [reflexivity | cbn [List.length]; lia |].
    apply scans_param_text; assumption.
  - exists true. intros rest H. destruct k; [| |contradiction Hk; reflexivity]; ender_cases H; reflexivity.
Qed.

Lemma option_reads : forall k s o, option_text k s o -> exists ts, reads_option k s ts o.
Proof.
  intros k s o H. destruct H as [s o H | s o H | s o H | s o H | k t Hk Ht He Hr | k t Hk Ht He Hr].
  - exists (toks s). exact (proj1 (Forall_forall _ _) tag_options_read _ H).
  - exists (toks s). exact (proj1 (Forall_forall _ _) cap_options_read_tag _ H).
  - exists (toks s). exact (proj1 (Forall_forall _ _) cap_options_read_file _ H).
  - exists (toks s). exact (proj1 (Forall_forall _ _) number_options_read _ H).
  - exists (ws_tokens t). apply ws_read; assumption.
  - exists ((Repl, COMPRESS_WS, Repl) :: ws_tokens t). apply compress_ws_read; assumption.
Qed.

(** ** Options joined by ampersands, and the closing parenthesis. *)
Lemma scans_amp : forall s ts e, scans Repl s ts e -> scans Repl (38 :: s) ((Repl, AMP, Repl) :: ts) e.
Proof. intros s ts e K. refine (scans_step _ _ _ _ s _ _ _ _ K); [reflexivity | cbn [List.length]; lia]. Qed.
Lemma scans_close : forall s ts e, scans Init s ts e -> scans Repl (41 :: s) ((Repl, RPAREN, Init) :: ts) e.
Proof. intros s ts e K. refine (scans_step _ _ _ _ s _ _ _ _ K); [reflexivity | cbn [List.length]; lia]. Qed.
Lemma scans_colon : forall s ts e, scans Repl s ts e -> scans Repl (58 :: s) ((Repl, COLON, Repl) :: ts) e.
Proof. intros s ts e K. refine (scans_step _ _ _ _ s _ _ _ _ K); [reflexivity | cbn [List.length]; lia]. Qed.
Lemma scans_open : forall s ts e, scans Repl s ts e -> scans Repl (40 :: s) ((Repl, LPAREN, Repl) :: ts) e.
Proof. intros s ts e K. refine (scans_step _ _ _ _ s _ _ _ _ K); [reflexivity | cbn [List.length]; lia]. Qed.

Definition reads_options (k : optclass) (s : bytes) (ts : list lexed) (os : list opt) : Prop :=
  word_tokens s 41 ts /\
  (forall st a rest, ts <> [] /\ forall acc f, (List.length ts < f)%nat ->
     (forall x y, In x acc -> In y os -> same_key y x = false) ->
     parse_opts f k acc (ts ++ (st, RPAREN, a) :: rest) = PRes (acc ++ os) rest).

Lemma pdup_free : forall o acc, (forall x, In x acc -> same_key o x = false) -> existsb (same_key o) acc = false.
Proof.
  intros o acc H. induction acc as [|x acc IH]; [reflexivity|]. cbn [existsb].
  rewrite (H x (or_introl eq_refl)). apply IH. intros y Hy. apply H. right. exact Hy.
Qed.

Lemma reads_option_nonempty : forall k s ts o, reads_option k s ts o -> ts <> [].
Proof.
  intros k s ts o [_ [p H]] ->. specialize (H [(Repl, AMP, Repl)] (ex_intro _ _ (ex_intro _ _ (ex_intro _ _ (or_introl eq_refl))))).
  cbn [app] in H. destruct k; discriminate H.
Qed.

Lemma parse_opts_step : forall f k acc l, parse_opts (S f) k acc l =
  pbind (parse_opt k l) (fun p rest =>
        let '(o, peek) := p in
        if existsb (same_key o) acc then
          (match peek, rest with
           | true, (_, (AMP | RPAREN), _) :: _ => PDup true rest
           | true, _ => PErr rest
           | false, _ => PDup false rest
           end)
        else match rest with
             | (_, AMP, _) :: r => parse_opts f k (acc ++ [o]) r
             | (_, RPAREN, _) :: r => PRes (acc ++ [o]) r
             | _ => PErr rest
             end).
Proof. reflexivity. Qed.

Lemma options_read : forall k s os, options_text k s os -> exists ts, reads_options k s ts os.
Proof.
  intros k s os H. induction H as [s o H | s o s' os H _ IH Hk].
  - destruct (option_reads k s o H) as [ts R]. exists ts.
    pose proof (reads_option_nonempty k s ts o R) as N1. destruct R as [R [p P]].
    split; [apply R; left; reflexivity|]. intros st a rest. split; [exact N1|].
    intros acc f Hf Ha. destruct f as [|f]; [lia|].
    rewrite parse_opts_step, P by (exists st, a, rest; right; reflexivity).
    cbn [pbind]. rewrite pdup_free; [reflexivity|]. intros x Hx. apply Ha; [exact Hx | left; reflexivity].
  - destruct (option_reads k s o H) as [ts1 R]. destruct IH as [ts2 [R2 P2]].
    pose proof (reads_option_nonempty k s ts1 o R) as N1. destruct R as [R [p P]].
    exists (ts1 ++ (Repl, AMP, Repl) :: ts2). split.
    + intros s0 ts' e K. rewrite <- !app_assoc. change (B "&" ++ s' ++ 41 :: s0) with (38 :: (s' ++ 41 :: s0)).
      apply R; [right; reflexivity|]. cbn [app]. apply scans_amp. apply R2. exact K.
    + intros st a rest. split; [destruct ts1; [contradiction | discriminate]|].
      intros acc f Hf Ha. rewrite app_length in Hf. cbn [List.length] in Hf.
      destruct f as [|f]; [lia|].
      rewrite <- app_assoc. cbn [app].
      rewrite parse_opts_step, P by (eexists; eexists; eexists; left; reflexivity).
      cbn [pbind]. rewrite pdup_free by (intros x Hx; apply Ha; [exact Hx | left; reflexivity]).
      destruct (P2 st a rest) as [_ P2']. rewrite P2'.
      * rewrite <- app_assoc. reflexivity.
      * lia.
      * intros x y Hx Hy. apply in_app_or in Hx. destruct Hx as [Hx | [<- | []]].
        -- apply Ha; [exact Hx | right; exact Hy].
        -- specialize (Hk y Hy). destruct o, y; try reflexivity; discriminate Hk.
Qed.

(** ** The settings. *)
Definition unique (os : list opt) : Prop :=
  ForallOrdPairs (fun o o' => same_key o o' = false) os.

Lemma options_unique : forall k s os, options_text k s os -> unique os.
Proof.
  intros k s os H. induction H as [s o H | s o s' os H _ IH Hk].
  - constructor; constructor.
  - constructor; [|exact IH]. apply Forall_forall. exact Hk.
Qed.

(** Folding an update that touches one field. *)
Lemma fold_setting : forall A R (upd : R -> opt -> R) (field : R -> A) (sel : opt -> option A),
  (forall r o, field (upd r o) = match sel o with Some x => x | None => field r end) ->
  (forall o o' x, sel o = Some x -> same_key o o' = false -> sel o' = None) ->
  forall os r, unique os -> field (fold_left upd os r) = setting sel (field r) os.
Proof.
  intros A R upd field sel U K os. induction os as [|o os IH]; intros r H; [reflexivity|].
  inversion H as [|? ? Hf Ho]; subst. cbn [fold_left]. rewrite (IH _ Ho), U.
  unfold setting at 2. change (flat_map ?f (o :: os)) with (f o ++ flat_map f os). cbv beta.
  destruct (sel o) as [x|] eqn:E.
  - cbn [app]. assert (Z : forall o', In o' os -> sel o' = None).
    { intros o' Ho'. rewrite Forall_forall in Hf. apply (K o o' x E). apply Hf. exact Ho'. }
    clear -Z. unfold setting. induction os as [|o' os IH]; [reflexivity|].
    change (flat_map ?f (o' :: os)) with (f o' ++ flat_map f os). cbv beta.
    rewrite (Z o' (or_introl eq_refl)). cbn [app]. apply IH. intros o'' H. apply Z. right. exact H.
  - reflexivity.
Qed.

Lemma fold_aacet : forall os, unique os -> fold_left set_aacet os aacet_default = aacet_with os.
Proof.
  intros os H. unfold aacet_with.
  pose proof (fold_setting _ _ set_aacet a_sp (fun o => match o with OSource p => Some p | _ => None end)) as F1.
  pose proof (fold_setting _ _ set_aacet a_v1 (fun o => match o with OV1enc p => Some p | _ => None end)) as F2.
  pose proof (fold_setting _ _ set_aacet a_the (fun o => match o with OThe p => Some p | _ => None end)) as F3.
  pose proof (fold_setting _ _ set_aacet a_cap (fun o => match o with OCap p => Some p | _ => None end)) as F4.
  pose proof (fold_setting _ _ set_aacet a_replace (fun o => match o with OWs _ r => r | _ => None end)) as F6.
  pose proof (fold_setting _ _ set_aacet a_out (fun o => match o with OOut p => Some p | _ => None end)) as F7.
  assert (F5 : forall os r, unique os -> a_compress r = false ->
            a_compress (fold_left set_aacet os r) = setting (fun o => match o with OWs c _ => Some c | _ => None end) false os).
  { clear. intros os. induction os as [|o os IH]; intros r H E; [exact E|].
    inversion H as [|? ? Hf Ho]; subst. cbn [fold_left]. unfold setting.
    change (flat_map ?f (o :: os)) with (f o ++ flat_map f os). cbv beta.
    destruct o as [p | e | x | x | c rep | e | b | c];
      try (etransitivity; [apply (IH _ Ho); exact E | reflexivity]).
    cbn [app].
    assert (Z : forall os r, (forall o', In o' os -> same_key (OWs c rep) o' = false) ->
                a_compress (fold_left set_aacet os r) = a_compress r).
    { clear. induction os as [|o os IH]; intros r Hf; [reflexivity|]. cbn [fold_left].
      rewrite IH by (intros o' Ho'; apply Hf; right; exact Ho').
      specialize (Hf o (or_introl eq_refl)). destruct o; try reflexivity. discriminate Hf. }
    rewrite Z by (apply Forall_forall; exact Hf). cbn [set_aacet a_compress]. rewrite E. apply orb_false_r. }
  specialize (F5 os aacet_default H eq_refl).
  specialize (F1 ltac:(intros r [| | | | | | |]; reflexivity) ltac:(intros [] [] ? ? K; try reflexivity; discriminate) os aacet_default H).
  specialize (F2 ltac:(intros r [| | | | | | |]; reflexivity) ltac:(intros [] [] ? ? K; try reflexivity; discriminate) os aacet_default H).
  specialize (F3 ltac:(intros r [| | | | | | |]; reflexivity) ltac:(intros [] [] ? ? K; try reflexivity; discriminate) os aacet_default H).
  specialize (F4 ltac:(intros r [| | | | | | |]; reflexivity) ltac:(intros [] [] ? ? K; try reflexivity; discriminate) os aacet_default H).
  specialize (F6 ltac:(intros r [| | | | ? [|] | | |]; reflexivity) ltac:(intros [] [] ? ? K; try reflexivity; discriminate) os aacet_default H).
  specialize (F7 ltac:(intros r [| | | | | | |]; reflexivity) ltac:(intros [] [] ? ? K; try reflexivity; discriminate) os aacet_default H).
  destruct (fold_left set_aacet os aacet_default) as [x1 x2 x3 x4 x5 x6 x7]. cbn [a_sp a_v1 a_the a_cap a_compress a_replace a_out aacet_default] in *.
  rewrite F1, F2, F3, F4, F5, F6, F7. reflexivity.
Qed.

Lemma fold_file : forall os, unique os -> fold_left set_file os fileopt_default = file_with os.
Proof.
  intros os H. unfold file_with.
  pose proof (fold_setting _ _ set_file f_the (fun o => match o with OThe p => Some p | _ => None end)) as F3.
  pose proof (fold_setting _ _ set_file f_cap (fun o => match o with OCap p => Some p | _ => None end)) as F4.
  pose proof (fold_setting _ _ set_file f_replace (fun o => match o with OWs _ r => r | _ => None end)) as F6.
  assert (F5 : forall os r, unique os -> f_compress r = false ->
            f_compress (fold_left set_file os r) = setting (fun o => match o with OWs c _ => Some c | _ => None end) false os).
  { clear. intros os. induction os as [|o os IH]; intros r H E; [exact E|].
    inversion H as [|? ? Hf Ho]; subst. cbn [fold_left]. unfold setting.
    change (flat_map ?f (o :: os)) with (f o ++ flat_map f os). cbv beta.
    destruct o as [p | e | x | x | c rep | e | b | c];
      try (etransitivity; [apply (IH _ Ho); exact E | reflexivity]).
    cbn [app].
    assert (Z : forall os r, (forall o', In o' os -> same_key (OWs c rep) o' = false) ->
                f_compress (fold_left set_file os r) = f_compress r).
    { clear. induction os as [|o os IH]; intros r Hf; [reflexivity|]. cbn [fold_left].
      rewrite IH by (intros o' Ho'; apply Hf; right; exact Ho').
      specialize (Hf o (or_introl eq_refl)). destruct o; try reflexivity. discriminate Hf. }
    rewrite Z by (apply Forall_forall; exact Hf). cbn [set_file f_compress]. rewrite E. apply orb_false_r. }
  specialize (F5 os fileopt_default H eq_refl).
  specialize (F3 ltac:(intros r [| | | | | | |]; reflexivity) ltac:(intros [] [] ? ? K; try reflexivity; discriminate) os fileopt_default H).
  specialize (F4 ltac:(intros r [| | | | | | |]; reflexivity) ltac:(intros [] [] ? ? K; try reflexivity; discriminate) os fileopt_default H).
  specialize (F6 ltac:(intros r [| | | | ? [|] | | |]; reflexivity) ltac:(intros [] [] ? ? K; try reflexivity; discriminate) os fileopt_default H).
  destruct (fold_left set_file os fileopt_default) as [x3 x4 x5 x6]. cbn [f_the f_cap f_compress f_replace fileopt_default] in *.
  rewrite F3, F4, F5, F6. reflexivity.
Qed.

Lemma number_no_case : forall s os, options_text ForNumber s os -> forall o, In o os -> exists b, o = OBase b.
Proof.
  assert (One : forall s o, option_text ForNumber s o -> exists b, o = OBase b).
  { intros s o H. inversion H as [| | |? ? Hi|? ? Hk|? ? Hk]; subst; try (contradiction Hk; reflexivity).
    unfold number_options in Hi. cbn [In] in Hi. destruct Hi as [E | [E | []]]; inversion E; subst; eexists; reflexivity. }
  intros s os H. induction H as [s o H | s o s' os H _ IH Hk]; intros o' Ho'.
  - destruct Ho' as [<- | []]. exact (One _ _ H).
  - destruct Ho' as [<- | Ho']; [exact (One _ _ H) | exact (IH o' Ho')].
Qed.

Lemma fold_number : forall s os, options_text ForNumber s os -> fold_left set_number os (None, None) = (base_with os, None).
Proof.
  intros s os H. pose proof (options_unique _ _ _ H) as U. pose proof (number_no_case _ _ H) as B. clear H s.
  unfold base_with.
  pose proof (fold_setting _ _ set_number fst (fun o => match o with OBase b => Some (Some b) | _ => None end)) as F.
  specialize (F ltac:(intros r [| | | | | | |]; reflexivity) ltac:(intros [] [] ? ? K; try reflexivity; discriminate) os (None, None) U).
  assert (G : forall os bc, (forall o, In o os -> exists b, o = OBase b) -> snd (fold_left set_number os bc) = snd bc).
  { clear. induction os as [|o os IH]; intros bc B; [reflexivity|]. cbn [fold_left].
    rewrite IH by (intros o' Ho'; apply B; right; exact Ho').
    destruct (B o (or_introl eq_refl)) as [b ->]. reflexivity. }
  specialize (G os (None, None) B). destruct (fold_left set_number os (None, None)) as [b c].
  cbn [fst snd] in *. subst. reflexivity.
Qed.
