(** * Lemmas: the values of options. *)
From Verif Require Import Base S_Ints M_Charset M_Encodings M_Options M_Main S_Main L_Main S_Popm M_Po S_Po L_Po.
#[local] Open Scope N_scope.

(** ** Casts *)
Lemma pos_grows l : forall acc, acc <= fold_left (fun a d => a * 10 + d) l acc.
Proof. induction l as [|d l IH]; intros acc; cbn [fold_left]; [lia|]. specialize (IH (acc * 10 + d)). lia. Qed.
Lemma digits_ok bound l : Forall digit l -> forall acc,
  fold_left (fun a d => a * 10 + d) (map (fun c => c - 48) l) acc < bound ->
  digits_value bound acc l = Some (fold_left (fun a d => a * 10 + d) (map (fun c => c - 48) l) acc).
Proof.
  induction 1 as [|c l D F IH]; intros acc H; cbn [digits_value map fold_left] in *; [reflexivity|]. unfold digit in D.
  assert (E : (48 <=? c) && (c <=? 57) = true) by (apply andb_true_intro; split; apply N.leb_le; lia). rewrite E.
  pose proof (pos_grows (map (fun c => c - 48) l) (acc * 10 + (c - 48))) as G.
  replace (10 * acc + (c - 48)) with (acc * 10 + (c - 48)) by lia.
  assert (L : acc * 10 + (c - 48) <? bound = true) by (apply N.ltb_lt; clear -G H; lia). rewrite L. apply IH. exact H.
Qed.
Lemma digits_sound bound l : forall acc n, digits_value bound acc l = Some n -> acc < bound ->
  Forall digit l /\ n = fold_left (fun a d => a * 10 + d) (map (fun c => c - 48) l) acc /\ n < bound.
Proof.
  induction l as [|c l IH]; intros acc n H A; cbn [digits_value map fold_left] in *.
  - injection H as <-. now split; [constructor|].
  - destruct ((48 <=? c) && (c <=? 57)) eqn:D; [|discriminate]. destruct (10 * acc + (c - 48) <? bound) eqn:L; [|discriminate].
    apply N.ltb_lt in L. destruct (IH _ _ H L) as (F & E & G). apply andb_prop in D. destruct D as (D1 & D2). apply N.leb_le in D1. apply N.leb_le in D2.
    split; [constructor; [now split|exact F]|]. split; [|exact G]. rewrite E. f_equal. lia.
Qed.
Lemma number_head c (l : bytes) bits : 48 <= c -> cast_number bits (c :: l) = digits_value (2 ^ bits) 0 (c :: l).
Proof.
  intros H. unfold cast_number. destruct c as [|q]; [lia|]. assert (A : N.pos q <> 45) by lia. assert (C : N.pos q <> 43) by lia. clear H.
  repeat (destruct q as [q|q|]; try reflexivity); try (now destruct A); now destruct C.
Qed.
Lemma number_ok bits s n : numeral s n -> n < 2 ^ bits -> cast_number bits s = Some n.
Proof.
  intros (NE & F & E) H. destruct s as [|c l]; [now destruct NE|]. rewrite number_head by (inversion F; subst; unfold digit in *; lia).
  rewrite E in H |- *. now apply digits_ok.
Qed.

Lemma lower_same s t : Forall2 same_letter s t -> Forall (fun c => ~ (65 <= c <= 90)) t -> lower s = t.
Proof.
  intros F. induction F as [|a c s t S F IH]; intros G; [reflexivity|]. inversion G; subst. unfold lower in *. cbn [map]. rewrite IH by assumption. f_equal.
  destruct S as [->|(R & ->)].
  - destruct ((65 <=? c) && (c <=? 90)) eqn:E; [|reflexivity]. apply andb_prop in E. destruct E as (E1 & E2). apply N.leb_le in E1. apply N.leb_le in E2. lia.
  - replace ((65 <=? a) && (a <=? 90)) with true; [reflexivity|]. symmetry. apply andb_true_intro. split; apply N.leb_le; lia.
Qed.
Fixpoint not_upper (s : bytes) : bool := match s with [] => true | c :: r => negb ((65 <=? c) && (c <=? 90)) && not_upper r end.
Lemma not_upper_ok s : not_upper s = true -> Forall (fun c => ~ (65 <= c <= 90)) s.
Proof.
  induction s as [|c r IH]; cbn [not_upper]; intros H; constructor; apply andb_prop in H; destruct H as (A & C); [|now apply IH].
  intros (L & U). apply N.leb_le in L. apply N.leb_le in U. rewrite L, U in A. discriminate A.
Qed.
Lemma switch_yes s : in_any_case yes_words s -> cast_switch s = Some true.
Proof.
  intros (t & I & F). unfold cast_switch.
  assert (G : not_upper t = true) by (destruct I as [<-|[<-|[<-|[<-|[<-|[]]]]]]; reflexivity).
  rewrite (lower_same s t F (not_upper_ok t G)). change [[]; B "on"; B "yes"; B "1"; B "true"] with yes_words. now rewrite (proj2 (exists_in t yes_words) I).
Qed.
Lemma switch_no s : in_any_case no_words s -> cast_switch s = Some false.
Proof.
  intros (t & I & F). unfold cast_switch.
  assert (G : not_upper t = true) by (destruct I as [<-|[<-|[<-|[<-|[]]]]]; reflexivity).
  rewrite (lower_same s t F (not_upper_ok t G)). destruct I as [<-|[<-|[<-|[<-|[]]]]]; reflexivity.
Qed.

Lemma word_all s : no_blank s -> word s = (s, []).
Proof.
  induction 1 as [|c s (A & C) F IH]; [reflexivity|]. cbn [word]. unfold blank.
  replace ((9 <=? c) && (c <=? 13)) with false; [|symmetry; apply andb_false_iff; destruct (N.le_gt_cases 9 c); [right|left]; apply N.leb_gt; lia].
  rewrite (proj2 (N.eqb_neq c 32) C). cbn [orb]. now rewrite IH.
Qed.
Lemma path_ok s : s <> [] -> no_blank s -> hd 0 s <> 34 -> cast_path s = Some s.
Proof.
  intros NE NB H. destruct s as [|c r]; [now destruct NE|]. cbn [hd] in H. unfold cast_path. rewrite (word_all _ NB).
  destruct c as [|q]; [reflexivity|]. repeat (destruct q as [q|q|]; try reflexivity). now destruct H.
Qed.
Lemma quoted_ok s : cast_path (in_quotes s) = Some s.
Proof.
  unfold cast_path, in_quotes. cbn [List.app]. induction s as [|c r IH]; [reflexivity|]. cbn [flat_map]. rewrite <- app_assoc.
  destruct (c =? 34) eqn:E; [apply N.eqb_eq in E; subst c; cbn [orb List.app unquote]; now rewrite IH|].
  destruct (c =? 92) eqn:F; [apply N.eqb_eq in F; subst c; cbn [orb List.app unquote]; now rewrite IH|]. cbn [orb List.app].
  assert (X : forall l, unquote (c :: l) = match unquote l with Some t => Some (c :: t) | None => None end).
  { intros l. destruct c as [|q]; [reflexivity|]. repeat (destruct q as [q|q|]; try reflexivity); discriminate. }
  now rewrite X, IH.
Qed.
Lemma blank_in s : (exists c, In c s /\ blank c = true) -> exists c r, snd (word s) = c :: r.
Proof.
  induction s as [|a s IH]; intros (c & I & Bl); [destruct I|]. cbn [word]. destruct (blank a) eqn:E; [now exists a, s|]. cbn [snd].
  destruct I as [->|I]; [congruence|]. apply IH. now exists c.
Qed.
Lemma path_blank s : hd 0 s <> 34 -> (exists c, In c s /\ blank c = true) -> cast_path s = None.
Proof.
  intros H E. destruct s as [|c r]; [now destruct E as (? & [] & _)|]. cbn [hd] in H. unfold cast_path.
  destruct (blank_in _ E) as (x & y & W). destruct (word (c :: r)) as [w l]. cbn [snd] in W. subst l.
  destruct c as [|q]; [reflexivity|]. repeat (destruct q as [q|q|]; try reflexivity). now destruct H.
Qed.

(** ** Occurrences one after the other *)
Fixpoint fold_parse (k : kind) (old : option value) (ls : list (list bytes)) : handled (option value) :=
  match ls with
  | [] => proceed old
  | ws :: r => let& v := parse_value k old ws in fold_parse k (Some v) r
  end.
Lemma texts_fold ls : forall l, fold_parse KTexts (Some (VTexts l)) ls = proceed (Some (VTexts (l ++ concat ls))).
Proof. induction ls as [|ws ls IH]; intros l; cbn [fold_parse concat parse_value]; [now rewrite app_nil_r|]. rewrite hbind_ok, IH. now rewrite app_assoc. Qed.
Lemma cast_all_ok l ns : Forall2 (fun s n => numeral s n /\ n < 2 ^ 64) l ns -> cast_all (cast_number 64) l = proceed ns.
Proof. induction 1 as [|s n l ns (A & C) F IH]; [reflexivity|]. cbn [cast_all]. rewrite (number_ok 64 s n A C). cbn [wanted]. rewrite IH. reflexivity. Qed.
Lemma sizes_fold ls : forall l ns, Forall2 (fun s n => numeral s n /\ n < 2 ^ 64) (concat ls) ns -> fold_parse KSizes (Some (VNums l)) ls = proceed (Some (VNums (l ++ ns))).
Proof.
  induction ls as [|ws ls IH]; intros l ns F; cbn [concat] in F.
  - inversion F; subst. cbn [fold_parse]. now rewrite app_nil_r.
  - apply Forall2_app_inv_l in F. destruct F as (n1 & n2 & F1 & F2 & ->). cbn [fold_parse parse_value]. rewrite (cast_all_ok _ _ F1), !hbind_ok, (IH _ _ F2). now rewrite app_assoc.
Qed.
Lemma no_words_fail s x : In (s, x) [(B "fail", NoFail); (B "ignore", NoIgnore); (B "transliterate", NoTranslit)] -> cast_word noenc_of_name s = proceed x.
Proof. intros [E|[E|[E|[]]]]; injection E as <- <-; reflexivity. Qed.
Lemma format_words s f : In (s, f) [(B "1", FCsv); (B "csv", FCsv); (B "2", FStandard); (B "standard", FStandard); (B "std", FStandard);
                                (B "3", FJson); (B "json", FJson)] -> cast_word format_of_name s = proceed f.
Proof. intros [E|[E|[E|[E|[E|[E|[E|[]]]]]]]]; injection E as <- <-; reflexivity. Qed.

Lemma reads_fold k ls v : reads k ls v -> ls <> [] -> fold_parse k None ls = proceed (Some v).
Proof.
  intros H NE. destruct H; cbn [fold_parse parse_value first single hbind proceed].
  - reflexivity.
  - rewrite (switch_yes s H). reflexivity.
  - rewrite (switch_no s H). reflexivity.
  - reflexivity.
  - rewrite (number_ok 64 s n H H0). reflexivity.
  - rewrite (number_ok 32 s n H H0). reflexivity.
  - reflexivity.
  - destruct ls as [|ws ls]; [now destruct NE|]. cbn [fold_parse parse_value]. rewrite hbind_ok, texts_fold. reflexivity.
  - destruct ls as [|ws ls]; [now destruct NE|]. cbn [concat] in H. apply Forall2_app_inv_l in H. destruct H as (n1 & n2 & F1 & F2 & ->).
    cbn [fold_parse parse_value]. rewrite (cast_all_ok _ _ F1), !hbind_ok, (sizes_fold ls _ _ F2). reflexivity.
  - rewrite (path_ok s H H0 H1). reflexivity.
  - rewrite quoted_ok. reflexivity.
  - unfold cast_word. rewrite (word_all s H0). cbn [fst snd]. rewrite H. reflexivity.
  - rewrite (no_words_fail s x H). reflexivity.
  - rewrite (format_words s f H). reflexivity.
Qed.

(** ** Maps *)
Lemma get_set {A} k (a : A) l x : get_var x (set_var k a l) = if bytes_eqb k x then Some a else get_var x l.
Proof.
  induction l as [|(y, b0) r IH]; cbn [set_var get_var]; [reflexivity|].
  destruct (bytes_eqb_spec y k) as [->|N1]; cbn [get_var].
  - now destruct (bytes_eqb k x).
  - rewrite IH. destruct (bytes_eqb_spec y x) as [->|N2]; [|reflexivity]. destruct (bytes_eqb_spec k x) as [->|]; [now destruct N1|reflexivity].
Qed.
Definition cur (vals : list (bytes * (value * bool))) (k : bytes) : option value := match get_var k vals with Some (v, false) => Some v | _ => None end.
Lemma cur_set v vals k x : cur (set_var k (v, false) vals) x = if bytes_eqb k x then Some v else cur vals x.
Proof. unfold cur. rewrite get_set. now destruct (bytes_eqb k x). Qed.

Lemma on_line_none cl d : on_line cl d = [] <-> ~ In (d_long d) (map fst cl).
Proof.
  unfold on_line. induction cl as [|(k, ws) r IH]; cbn [filter map fst In]; [tauto|]. destruct (bytes_eqb_spec k (d_long d)) as [E|E]; cbn [map].
  - split; [discriminate|]. intros H. exfalso. apply H. now left.
  - rewrite IH. tauto.
Qed.
Lemma on_line_cons k ws r d : on_line ((k, ws) :: r) d = if bytes_eqb k (d_long d) then ws :: on_line r d else on_line r d.
Proof. unfold on_line. cbn [filter fst]. now destruct (bytes_eqb k (d_long d)). Qed.

Lemma find_exact ds k : sane ds -> hd 0 k <> 45 -> forall d, find_desc false ds k = proceed (Some d) -> In d ds /\ d_long d = k.
Proof.
  intros S H d F. split; [exact (find_known _ _ _ _ F)|]. unfold find_desc in F.
  destruct (filter (fun d => is_full (match_desc false k d)) ds) as [|a [|? ?]] eqn:E; try discriminate F.
  - exfalso. destruct (filter (fun d => is_approximate (match_desc false k d)) ds) as [|a l] eqn:G; [discriminate F|].
    assert (I : In a (a :: l)) by now left. rewrite <- G in I. apply filter_In in I. destruct I as (_ & I). unfold match_desc in I.
    destruct (bytes_eqb (d_long a) k); [discriminate I|]. destruct (match d_short a with Some c => bytes_eqb [45; c] k | None => false end); discriminate I.
  - apply proceed_inj in F. injection F as <-. assert (I : In a [a]) by now left. rewrite <- E in I. apply filter_In in I. destruct I as (_ & I).
    destruct (match_desc false k a) eqn:M; try discriminate I. apply match_full in M. destruct M as [M|(c & _ & ->)]; [exact M|]. now destruct H.
Qed.

(** ** Storing *)
Lemma store_sound ds final : sane ds -> forall ps vals new vals' new',
  Forall (fun p => hd 0 (fst p) <> 45) ps ->
  store_parsed ds ps final vals new = proceed (vals', new') ->
  (forall d, In d ds -> ~ In (d_long d) final -> fold_parse (d_kind d) (cur vals (d_long d)) (on_line ps d) = proceed (cur vals' (d_long d))) /\
  (forall k, ~ In k (map fst ps) \/ In k final -> get_var k vals' = get_var k vals) /\
  (forall k, In k new' <-> In k new \/ (In k (map fst ps) /\ ~ In k final)) /\
  (forall k, In k (map fst ps) -> ~ In k final -> exists d, In d ds /\ d_long d = k).
Proof.
  intros S. induction ps as [|(k, ws) r IH]; intros vals new vals' new' HH H; cbn [store_parsed] in H.
  - apply proceed_inj in H. injection H as <- <-. split; [reflexivity|]. split; [reflexivity|]. split; [cbn; tauto|]. intros k [].
  - inversion HH as [|? ? H1 H2]; subst. cbn [fst] in H1. destruct (existsb (bytes_eqb k) final) eqn:Fi.
    + apply exists_in in Fi. destruct (IH _ _ _ _ H2 H) as (A & C & D & E). split; [|split; [|split]].
      * intros d I NF. rewrite on_line_cons. rewrite bytes_neqb; [now apply A|]. intros ->. contradiction.
      * intros x [N1|N1]; apply C; [left|now right]. intros J. apply N1. now right.
      * intros x. rewrite D. cbn [map fst In]. split; [tauto|]. intros [J|([<-|J] & K)]; [now left|contradiction|tauto].
      * intros x [<-|J] NF; [contradiction|now apply E].
    + apply exists_not in Fi. apply hbind_inv in H. destruct H as (od & Fd & H). destruct od as [d|]; [|discriminate H]. cbn [wanted] in H.
      change (Handled (Ok d)) with (proceed d) in H. rewrite hbind_ok in H.
      apply hbind_inv in H. destruct H as (v & Pv & H). destruct (find_exact ds k S H1 d Fd) as (Id & Ld).
      destruct (IH _ _ _ _ H2 H) as (A & C & D & E). split; [|split; [|split]].
      * intros d' I NF. rewrite on_line_cons. specialize (A d' I NF). rewrite cur_set in A. destruct (bytes_eqb_spec k (d_long d')) as [Ek|Ek]; [|exact A].
        assert (d' = d) as -> by (apply (same_long ds); [exact (s_nodup _ S)|exact I|exact Id|congruence]).
        cbn [fold_parse]. unfold cur at 1. rewrite <- Ek. rewrite Pv, hbind_ok, Ek. exact A.
      * intros x N1. rewrite C; [|destruct N1 as [N1|N1]; [left; intros J; apply N1; now right|now right]]. rewrite get_set.
        rewrite bytes_neqb; [reflexivity|]. intros ->. destruct N1 as [N1|N1]; [apply N1; now left|contradiction].
      * intros x. rewrite D. cbn [map fst In]. split; [intros [[<-|J]|J]; tauto|]. tauto.
      * intros x [<-|J] NF; [now exists d|now apply E].
Qed.
Lemma store_complete ds final : sane ds -> forall ps vals new,
  (forall k, In k (map fst ps) -> ~ In k final -> exists d, In d ds /\ d_long d = k) ->
  (forall d, In d ds -> ~ In (d_long d) final -> exists o, fold_parse (d_kind d) (cur vals (d_long d)) (on_line ps d) = proceed o) ->
  exists r, store_parsed ds ps final vals new = proceed r.
Proof.
  intros S. induction ps as [|(k, ws) r IH]; intros vals new K R; cbn [store_parsed]; [now eexists|].
  destruct (existsb (bytes_eqb k) final) eqn:Fi.
  - apply exists_in in Fi. apply IH.
    + intros x J. apply K. now right.
    + intros d I NF. specialize (R d I NF). rewrite on_line_cons in R. rewrite bytes_neqb in R; [exact R|]. intros ->. contradiction.
  - apply exists_not in Fi. destruct (K k (or_introl eq_refl) Fi) as (d & I & E). rewrite (find_name false ds k d S I E). rewrite hbind_ok. cbn [wanted].
    change (Handled (Ok d)) with (proceed d). rewrite hbind_ok.
    assert (NF : ~ In (d_long d) final) by now rewrite E. destruct (R d I NF) as (o & Ro). rewrite on_line_cons, E, bytes_refl in Ro. cbn [fold_parse] in Ro.
    apply hbind_inv in Ro. destruct Ro as (v & Pv & Ro). unfold cur in Pv. rewrite Pv, hbind_ok. apply IH.
    + intros x J. apply K. now right.
    + intros d' I' NF'. rewrite cur_set. destruct (bytes_eqb_spec k (d_long d')) as [Ek|Ek].
      * assert (d' = d) as -> by (apply (same_long ds); [exact (s_nodup _ S)|exact I'|exact I|congruence]). now exists o.
      * specialize (R d' I' NF'). rewrite on_line_cons in R. rewrite bytes_neqb in R by exact Ek. exact R.
Qed.

Lemma defaults_keep ds : forall vals k x, get_var k vals = Some x -> get_var k (store_defaults ds vals) = Some x.
Proof.
  induction ds as [|d r IH]; intros vals k x H; cbn [store_defaults]; [exact H|]. apply IH.
  destruct (get_var (d_long d) vals) eqn:E; [exact H|]. destruct (d_default d); [|exact H]. rewrite get_set. rewrite bytes_neqb; [exact H|]. congruence.
Qed.
Lemma defaults_other ds : forall vals k, ~ In k (map d_long ds) -> get_var k (store_defaults ds vals) = get_var k vals.
Proof.
  induction ds as [|d r IH]; intros vals k H; cbn [store_defaults]; [reflexivity|]. rewrite IH by (intros J; apply H; now right).
  destruct (get_var (d_long d) vals); [reflexivity|]. destruct (d_default d); [|reflexivity]. rewrite get_set. rewrite bytes_neqb; [reflexivity|].
  intros E. apply H. now left.
Qed.
Lemma defaults_new ds : NoDup (map d_long ds) -> forall vals d, In d ds -> get_var (d_long d) vals = None ->
  get_var (d_long d) (store_defaults ds vals) = match d_default d with Some v => Some (v, true) | None => None end.
Proof.
  induction ds as [|d0 r IH]; intros ND vals d I H; [destruct I|]. cbn [store_defaults]. inversion ND as [|? ? NI ND']; subst. destruct I as [->|I].
  - rewrite H. destruct (d_default d) as [v|].
    + apply defaults_keep. rewrite get_set. now rewrite bytes_refl.
    + rewrite defaults_other by exact NI. exact H.
  - apply IH; [exact ND'|exact I|]. destruct (get_var (d_long d0) vals) eqn:E; [exact H|]. destruct (d_default d0); [|exact H]. rewrite get_set.
    rewrite bytes_neqb; [exact H|]. intros Ex. apply NI. rewrite Ex. now apply in_map.
Qed.
Lemma defaults_cur ds vals k : cur (store_defaults ds vals) k = cur vals k.
Proof.
  revert vals. induction ds as [|d r IH]; intros vals; cbn [store_defaults]; [reflexivity|]. rewrite IH.
  destruct (get_var (d_long d) vals) eqn:E; [reflexivity|]. destruct (d_default d); [|reflexivity]. unfold cur. rewrite get_set.
  destruct (bytes_eqb_spec (d_long d) k) as [<-|]; [|reflexivity]. now rewrite E.
Qed.

(** ** The environment *)
Lemma get_in {A} (l : list (bytes * A)) : NoDup (map fst l) -> forall x a, get_var x l = Some a <-> In (x, a) l.
Proof.
  induction l as [|(y, b0) r IH]; intros ND x a; cbn [get_var In]; [split; [discriminate|tauto]|]. inversion ND as [|? ? NI ND']; subst. cbn [fst] in NI.
  destruct (bytes_eqb_spec y x) as [->|E].
  - split; [intros H; left; congruence|]. intros [H|H]; [congruence|]. exfalso. apply NI. now apply (in_map fst) in H.
  - rewrite (IH ND'). split; [tauto|]. intros [H|H]; [congruence|exact H].
Qed.
Lemma env_line T vars d : NoDup (map fst (t_env T)) -> on_line (parse_environment (t_env T) vars) d = in_env T vars d.
Proof.
  intros ND. unfold in_env. induction vars as [|(x, s) r IH]; [reflexivity|]. cbn [parse_environment filter fst snd].
  assert (X : existsb (fun q => bytes_eqb (fst q) x && bytes_eqb (snd q) (d_long d)) (t_env T) = match get_var x (t_env T) with Some k => bytes_eqb k (d_long d) | None => false end).
  { destruct (existsb _ (t_env T)) eqn:E.
    - apply existsb_exists in E. destruct E as ((y, k) & I & E). cbn [fst snd] in E. apply andb_prop in E. destruct E as (E1 & E2).
      destruct (bytes_eqb_spec y x) as [->|]; [|discriminate]. apply (get_in _ ND) in I. rewrite I. now symmetry.
    - destruct (get_var x (t_env T)) as [k|] eqn:G; [|reflexivity]. apply (get_in _ ND) in G. destruct (bytes_eqb k (d_long d)) eqn:K; [|reflexivity].
      rewrite <- E. apply existsb_exists. exists (x, k). split; [exact G|]. cbn [fst snd]. now rewrite bytes_refl, K. }
  rewrite X. destruct (get_var x (t_env T)) as [k|]; [|exact IH]. rewrite on_line_cons. destruct (bytes_eqb k (d_long d)); cbn [map snd]; now rewrite IH.
Qed.
Lemma env_keys T vars k : NoDup (map fst (t_env T)) -> In k (map fst (parse_environment (t_env T) vars)) -> exists x s, In (x, s) vars /\ In (x, k) (t_env T).
Proof.
  intros ND. induction vars as [|(x, s) r IH]; cbn [parse_environment map]; [intros []|]. destruct (get_var x (t_env T)) as [k'|] eqn:G.
  - intros [E|I]; [|destruct (IH I) as (y & t & A & C); exists y, t; split; [now right|exact C]]. cbn [fst] in E. subst k'. exists x, s. split; [now left|]. now apply (get_in _ ND).
  - intros I. destruct (IH I) as (y & t & A & C). exists y, t. split; [now right|exact C].
Qed.

(** ** Altogether *)
Record fit (T : tables) : Prop := {
  f_all : sane (t_all T); f_opts : sane (t_opts T); f_incl : incl (t_opts T) (t_all T); f_env : NoDup (map fst (t_env T));
  f_keys : Forall (fun p => hd 0 (snd p) <> 45) (t_env T); f_name : In (t_name T) (map d_long (t_all T)) }.

Definition named (os : list popt) : parsed := map (fun o => (q_key o, q_words o)) os.

Lemma parse_hd T vars : fit T -> Forall (fun p => hd 0 (fst p) <> 45) (parse_environment (t_env T) vars).
Proof.
  intros Ft. apply Forall_forall. intros (k, ws) I. cbn [fst]. apply (in_map fst) in I. apply (env_keys T vars k (f_env _ Ft)) in I. destruct I as (x & s & _ & I).
  exact (proj1 (Forall_forall _ _) (f_keys _ Ft) _ I).
Qed.
Lemma known_hd ds (cl : parsed) : sane ds -> (forall k, In k (map fst cl) -> exists d, In d ds /\ d_long d = k) -> Forall (fun p => hd 0 (fst p) <> 45) cl.
Proof.
  intros S H. apply Forall_forall. intros p I. apply (in_map fst) in I. destruct (H _ I) as (d & J & E). rewrite <- E.
  exact (proj1 (proj2 (proj1 (Forall_forall _ _) (s_long _ S) d J))).
Qed.

(** As [worth], by what the words are parsed to. *)
Inductive yields (T : tables) (cl : parsed) (vars : list (bytes * bytes)) (d : desc) : option value -> Prop :=
| yield_line v : on_line cl d <> [] -> fold_parse (d_kind d) None (on_line cl d) = proceed (Some v) -> yields T cl vars d (Some v)
| yield_env v : on_line cl d = [] -> in_env T vars d <> [] -> fold_parse (d_kind d) None (in_env T vars d) = proceed (Some v) -> yields T cl vars d (Some v)
| yield_default v : on_line cl d = [] -> in_env T vars d = [] -> d_default d = Some v -> yields T cl vars d (Some v)
| yield_none : on_line cl d = [] -> in_env T vars d = [] -> d_default d = None -> yields T cl vars d None.
Lemma worth_yields T cl vars d v : worth T cl vars d v -> yields T cl vars d v.
Proof.
  intros [x A C|x A C D|x A C D|A C D _].
  - apply yield_line; [exact A|now apply reads_fold].
  - apply yield_env; [exact A|exact C|now apply reads_fold].
  - now apply yield_default.
  - now apply yield_none.
Qed.
Lemma stored_yields T cl vars m1 m : fit T -> Forall (fun p => hd 0 (fst p) <> 45) cl ->
  store (t_all T) cl nothing_stored = proceed m1 -> store (t_opts T) (parse_environment (t_env T) vars) m1 = proceed m ->
  forall d, In d (t_all T) -> forall v, yields T cl vars d v -> value_of m (d_long d) = v.
Proof.
  intros Ft HH H1 H2 d I v W. unfold store in H1, H2. cbn [nothing_stored m_final m_vals] in H1.
  apply hbind_inv in H1. destruct H1 as ((vals1, new1) & P1 & E1). apply proceed_inj in E1. subst m1. cbn [m_vals m_final] in H2.
  apply hbind_inv in H2. destruct H2 as ((vals2, new2) & P2 & E2). apply proceed_inj in E2. subst m.
  destruct (store_sound _ _ (f_all _ Ft) _ _ _ _ _ HH P1) as (A1 & C1 & D1 & K1).
  destruct (store_sound _ _ (f_opts _ Ft) _ _ _ _ _ (parse_hd T vars Ft) P2) as (A2 & C2 & D2 & K2).
  assert (F1 : forall k, In k (new1 ++ []) <-> In k (map fst cl)).
  { intros k. rewrite app_nil_r, D1. cbn. tauto. }
  unfold value_of. cbn [m_vals].
  assert (Opt : forall d', In d' (t_opts T) -> d_long d' = d_long d -> d' = d).
  { intros d' J E. apply (same_long (t_all T)); [exact (s_nodup _ (f_all _ Ft))|exact (f_incl _ Ft d' J)|exact I|exact E]. }
  destruct W as [v L R|v L V R|v L V De|L V De].
  - specialize (A1 d I (fun F => F)). change (cur [] (d_long d)) with (@None value) in A1. rewrite R in A1. apply proceed_inj in A1.
    assert (G1 : get_var (d_long d) vals1 = Some (v, false)).
    { unfold cur in A1. destruct (get_var (d_long d) vals1) as [[? []]|]; congruence. }
    assert (J : In (d_long d) (map fst cl)).
    { destruct (in_dec (list_eq_dec N.eq_dec) (d_long d) (map fst cl)) as [J|J]; [exact J|]. apply on_line_none in J. contradiction. }
    apply F1 in J. pose proof (eq_trans (C2 _ (or_intror J)) (defaults_keep _ _ _ _ G1)) as G2. now rewrite (defaults_keep _ _ _ _ G2).
  - apply on_line_none in L. assert (NF : ~ In (d_long d) (new1 ++ [])) by now rewrite F1.
    rewrite <- (env_line T vars d (f_env _ Ft)) in V, R.
    assert (J : In (d_long d) (map fst (parse_environment (t_env T) vars))).
    { destruct (in_dec (list_eq_dec N.eq_dec) (d_long d) (map fst (parse_environment (t_env T) vars))) as [J|J]; [exact J|]. apply on_line_none in J. contradiction. }
    destruct (K2 _ J NF) as (d' & J' & E'). pose proof (Opt d' J' E'). subst d'.
    specialize (A2 d J' NF). rewrite defaults_cur in A2. assert (Z : cur vals1 (d_long d) = None).
    { unfold cur. rewrite C1 by now left. reflexivity. }
    rewrite Z, R in A2. apply proceed_inj in A2.
    assert (G2 : get_var (d_long d) vals2 = Some (v, false)).
    { unfold cur in A2. destruct (get_var (d_long d) vals2) as [[? []]|]; congruence. }
    now rewrite (defaults_keep _ _ _ _ G2).
  - apply on_line_none in L. rewrite <- (env_line T vars d (f_env _ Ft)) in V. apply on_line_none in V.
    assert (G1 : get_var (d_long d) (store_defaults (t_all T) vals1) = Some (v, true)).
    { rewrite (defaults_new _ (s_nodup _ (f_all _ Ft)) vals1 d I); [now rewrite De|]. rewrite C1 by now left. reflexivity. }
    pose proof (eq_trans (C2 _ (or_introl V)) G1) as G2. now rewrite (defaults_keep _ _ _ _ G2).
  - apply on_line_none in L. rewrite <- (env_line T vars d (f_env _ Ft)) in V. apply on_line_none in V.
    assert (G1 : get_var (d_long d) (store_defaults (t_all T) vals1) = None).
    { rewrite (defaults_new _ (s_nodup _ (f_all _ Ft)) vals1 d I); [now rewrite De|]. rewrite C1 by now left. reflexivity. }
    assert (G2 : get_var (d_long d) vals2 = None) by (rewrite C2 by (now left); exact G1).
    destruct (in_dec (list_eq_dec N.eq_dec) (d_long d) (map d_long (t_opts T))) as [J|J].
    + apply in_map_iff in J. destruct J as (d' & E' & J'). pose proof (Opt d' J' E'). subst d'.
      rewrite (defaults_new _ (s_nodup _ (f_opts _ Ft)) vals2 d J' G2). now rewrite De.
    + rewrite defaults_other by exact J. now rewrite G2.
Qed.

Lemma stored_sound T cl vars m1 m : fit T -> Forall (fun p => hd 0 (fst p) <> 45) cl ->
  store (t_all T) cl nothing_stored = proceed m1 -> store (t_opts T) (parse_environment (t_env T) vars) m1 = proceed m ->
  forall d, In d (t_all T) -> forall v, worth T cl vars d v -> value_of m (d_long d) = v.
Proof. intros Ft H A C d I v W. exact (stored_yields T cl vars m1 m Ft H A C d I v (worth_yields _ _ _ _ _ W)). Qed.

Lemma worth_line T cl vars d v : worth T cl vars d v -> exists o, fold_parse (d_kind d) None (on_line cl d) = proceed o.
Proof.
  intros [v' L R|v' L _ _|v' L _ _|L _ _ _]; [|rewrite L; now eexists..]. exists (Some v'). now apply reads_fold.
Qed.
Lemma stored_complete T cl vars : fit T -> (forall k, In k (map fst cl) -> exists d, In d (t_all T) /\ d_long d = k) -> known_vars T vars ->
  (forall d, In d (t_all T) -> exists v, worth T cl vars d v) ->
  exists m1 m, store (t_all T) cl nothing_stored = proceed m1 /\ store (t_opts T) (parse_environment (t_env T) vars) m1 = proceed m.
Proof.
  intros Ft Kn KV W. unfold store. cbn [nothing_stored m_final m_vals].
  destruct (store_complete _ [] (f_all _ Ft) cl [] []) as ((vals1, new1) & P1).
  { intros k J _. now apply Kn. }
  { intros d I _. change (cur [] (d_long d)) with (@None value). destruct (W d I) as (v & Wd). exact (worth_line _ _ _ _ _ Wd). }
  destruct (store_sound _ _ (f_all _ Ft) _ _ _ _ _ (known_hd _ _ (f_all _ Ft) Kn) P1) as (A1 & C1 & D1 & K1).
  rewrite P1, hbind_ok. destruct (store_complete _ (new1 ++ []) (f_opts _ Ft) (parse_environment (t_env T) vars) (store_defaults (t_all T) vals1) []) as ((vals2, new2) & P2).
  { intros k J _. apply (env_keys T vars k (f_env _ Ft)) in J. destruct J as (x & s & I1 & I2). exact (KV x s k I1 I2). }
  { intros d I NF. rewrite app_nil_r in NF. rewrite defaults_cur, (env_line T vars d (f_env _ Ft)).
    assert (L : ~ In (d_long d) (map fst cl)). { intros J. apply NF. apply D1. right. split; [exact J|now cbn]. }
    assert (Z : cur vals1 (d_long d) = None). { unfold cur. rewrite C1 by now left. reflexivity. }
    rewrite Z. destruct (W d (f_incl _ Ft d I)) as (v & Wd). destruct Wd as [v L' _|v _ V R|v _ V _|_ V _ _].
    - apply on_line_none in L. contradiction.
    - exists (Some v). now apply reads_fold.
    - rewrite V. now eexists.
    - rewrite V. now eexists. }
  eexists. eexists. split; [reflexivity|]. cbn [m_vals m_final]. rewrite P2, hbind_ok. reflexivity.
Qed.

Lemma help_none os tokens : made_of os tokens -> no_help tokens -> parsed_help (map q_tokens os) HelpNone None = (HelpNone, None).
Proof.
  intros M H. apply parsed_none. intros ts t I J. apply in_map_iff in I. destruct I as (o & <- & I). apply H. exact (M o t I J).
Qed.
Lemma required_there T cl vars m : (forall d, In d (t_all T) -> exists v, worth T cl vars d v) ->
  (forall d, In d (t_all T) -> forall v, worth T cl vars d v -> value_of m (d_long d) = v) -> notify (t_all T) m = proceed tt.
Proof.
  intros W V. unfold notify. replace (forallb _ (t_all T)) with true; [reflexivity|]. symmetry. apply forallb_forall. intros d I.
  destruct (W d I) as (v & Wd). pose proof (V d I v Wd) as E. unfold value_of in E. destruct (get_var (d_long d) (m_vals m)) as [[x y]|]; [now rewrite orb_true_r|].
  destruct Wd; try discriminate E. now rewrite H2.
Qed.

Lemma gather_values T tokens cl vars : fit T -> line T tokens cl -> enough_room T cl -> no_help tokens ->
  (forall k, In k (map fst cl) -> exists d, In d (t_all T) /\ d_long d = k) -> known_vars T vars ->
  (forall d, In d (t_all T) -> exists v, worth T cl vars d v) ->
  exists m, gather T tokens vars = Handled (Ok (inr m)) /\ forall d, In d (t_all T) -> forall v, worth T cl vars d v -> value_of m (d_long d) = v.
Proof.
  intros Ft L R NH Kn KV W. destruct (line_meant T tokens cl (f_all _ Ft) L R) as (os & E & N1 & M).
  destruct (stored_complete T cl vars Ft Kn KV W) as (m1 & m & S1 & S2).
  pose proof (stored_sound T cl vars m1 m Ft (known_hd _ _ (f_all _ Ft) Kn) S1 S2) as V. exists m. split; [|exact V].
  unfold gather. rewrite E, hbind_ok, (help_none os tokens M NH), N1, S1, hbind_ok, S2, hbind_ok, (required_there T cl vars m W V). reflexivity.
Qed.
Lemma gather_sound T tokens vars os m : fit T -> parse_line (t_all T) (t_name T) (t_room T) tokens = proceed os -> gather T tokens vars = Handled (Ok (inr m)) ->
  (forall k, In k (map fst (named os)) -> exists d, In d (t_all T) /\ d_long d = k) ->
  forall d, In d (t_all T) -> forall v, worth T (named os) vars d v -> value_of m (d_long d) = v.
Proof.
  intros Ft E G Kn. unfold gather in G. rewrite E, hbind_ok in G. destruct (parsed_help (map q_tokens os) HelpNone None) as [h f]. destruct h; try discriminate G.
  apply hbind_inv in G. destruct G as (m1 & S1 & G). apply hbind_inv in G. destruct G as (m2 & S2 & G). apply hbind_inv in G. destruct G as (u & _ & G).
  apply proceed_inj in G. injection G as <-. exact (stored_sound T (named os) vars m1 m2 Ft (known_hd _ _ (f_all _ Ft) Kn) S1 S2).
Qed.

(** ** Whatever is on the line *)
Definition delivered (ds : list desc) (o : popt) : Prop :=
  q_key o = [] \/ exists d, In d ds /\ d_long d = q_key o /\ (takes_nothing d -> q_words o = []).
Lemma finish_delivered ds o args o' rest : finish_option ds o args = proceed (o', rest) ->
  delivered ds o' /\ (List.length rest <= List.length args)%nat.
Proof.
  unfold finish_option. intros H. destruct (q_key o) as [|c k] eqn:K.
  { apply proceed_inj in H. injection H as <- <-. split; [now left|lia]. }
  apply hbind_inv in H. destruct H as (od & F & H).
  destruct od as [d|]; [|discriminate H]. cbn [wanted hbind] in H. pose proof (find_known _ _ _ _ F) as I. destruct (is_switch d) eqn:Sw.
  - destruct (q_words o) eqn:Wo; [|discriminate H]. apply proceed_inj in H. injection H as <- <-. split; [|lia]. right. exists d. now split; [|split].
  - assert (NT : ~ takes_nothing d) by (rewrite <- switch_iff; congruence). destruct (q_words o) as [|w ws] eqn:Wo.
    + destruct args as [|t r]; [discriminate H|]. apply hbind_inv in H. destruct H as (b0 & _ & H). destruct b0; [discriminate H|]. apply proceed_inj in H. injection H as <- <-.
      split; [|cbn; lia]. right. exists d. split; [exact I|]. split; [reflexivity|]. intros X. contradiction.
    + apply proceed_inj in H. injection H as <- <-. split; [|lia]. right. exists d. split; [exact I|]. split; [reflexivity|]. intros X. contradiction.
Qed.
Lemma finish_all ds : forall os args os' rest, finish_options ds os args = proceed (os', rest) ->
  Forall (delivered ds) os' /\ (List.length rest <= List.length args)%nat.
Proof.
  induction os as [|o os IH]; intros args os' rest H.
  - apply proceed_inj in H. injection H as <- <-. split; [constructor|lia].
  - destruct os as [|o2 os].
    + cbn [finish_options] in H. apply hbind_inv in H. destruct H as ((o1, r1) & F & H). apply proceed_inj in H. injection H as <- <-.
      destruct (finish_delivered _ _ _ _ _ F) as (D & L). split; [now constructor|exact L].
    + change (finish_options ds (o :: o2 :: os) args) with
        (let& (o, _) := finish_option ds o [] in let& (l, rest) := finish_options ds (o2 :: os) args in proceed (o :: l, rest)) in H.
      apply hbind_inv in H. destruct H as ((o1, r1) & F & H). apply hbind_inv in H. destruct H as ((l1, r2) & G & H). apply proceed_inj in H. injection H as <- <-.
      destruct (finish_delivered _ _ _ _ _ F) as (D & _). destruct (IH _ _ _ G) as (D2 & L). split; [now constructor|exact L].
Qed.
Lemma tokens_step fuel ds t r : parse_tokens (S fuel) ds (t :: r) =
    (let& l := parse_long t in
     let& s := match l with Some o => proceed (Some [o]) | None => parse_short ds t end in
     match s with
     | Some os => let& (os, rest) := finish_options ds os r in let& ps := parse_tokens fuel ds rest in proceed (os ++ ps)
     | None => if bytes_eqb t (B "--") then proceed (map argument r) else let& ps := parse_tokens fuel ds r in proceed (argument t :: ps)
     end).
Proof. reflexivity. Qed.
Lemma tokens_delivered ds : forall fuel args os, parse_tokens fuel ds args = proceed os -> Forall (delivered ds) os.
Proof.
  induction fuel as [|fuel IH]; intros args os H.
  - destruct args; [|discriminate H]. apply proceed_inj in H. subst os. constructor.
  - destruct args as [|t r]; [apply proceed_inj in H; subst os; constructor|]. rewrite tokens_step in H.
    apply hbind_inv in H. destruct H as (l & _ & H). apply hbind_inv in H. destruct H as (s & _ & H). destruct s as [os1|].
    + apply hbind_inv in H. destruct H as ((os2, rest) & F & H). apply hbind_inv in H. destruct H as (ps & G & H). apply proceed_inj in H. subst os.
      apply Forall_app. split; [exact (proj1 (finish_all _ _ _ _ _ F))|exact (IH _ _ G)].
    + destruct (bytes_eqb t (B "--")).
      * apply proceed_inj in H. subst os. apply Forall_forall. intros o I. apply in_map_iff in I. destruct I as (x & <- & _). now left.
      * apply hbind_inv in H. destruct H as (ps & G & H). apply proceed_inj in H. subst os. constructor; [now left|exact (IH _ _ G)].
Qed.
Lemma name_inv name : forall os room os', name_arguments name room os = proceed os' ->
  os' = map (fun o => mkPopt (match q_key o with [] => name | k => k end) (q_words o) (q_tokens o)) os.
Proof.
  induction os as [|o os IH]; intros room os' H; cbn [name_arguments map] in *; [apply proceed_inj in H; now subst|].
  destruct o as [[|c k] ws ts]; cbn [q_key q_words q_tokens] in *.
  - destruct room as [[|n]|]; [discriminate H| |]; apply hbind_inv in H; destruct H as (l & E & H); apply proceed_inj in H; subst os'; f_equal; exact (IH _ _ E).
  - destruct room as [[|n]|]; apply hbind_inv in H; destruct H as (l & E & H); apply proceed_inj in H; subst os'; f_equal; exact (IH _ _ E).
Qed.
Lemma line_delivered T tokens os : fit T -> parse_line (t_all T) (t_name T) (t_room T) tokens = proceed os ->
  (forall k, In k (map fst (named os)) -> exists d, In d (t_all T) /\ d_long d = k) /\
  forall d, In d (t_all T) -> takes_nothing d -> d_long d <> t_name T -> Forall (fun ws => ws = []) (on_line (named os) d).
Proof.
  intros Ft H. unfold parse_line in H. apply hbind_inv in H. destruct H as (ps & P & H). apply name_inv in H. subst os. pose proof (tokens_delivered _ _ _ _ P) as D. clear P.
  unfold named. rewrite map_map. cbn [q_key q_words]. split.
  - intros k I. rewrite map_map in I. cbn [fst] in I. apply in_map_iff in I. destruct I as (o & <- & I). pose proof (proj1 (Forall_forall _ _) D o I) as Do.
    unfold delivered in Do. destruct (q_key o) as [|c k] eqn:K.
    + pose proof (f_name _ Ft) as N1. apply in_map_iff in N1. destruct N1 as (d & E & J). now exists d.
    + destruct Do as [Do|(d & J & E & _)]; [discriminate Do|]. exists d. split; [exact J|exact E].
  - intros d I S N1. induction D as [|o ps Do D IH]; [constructor|]. cbn [map]. rewrite on_line_cons. cbn [q_key q_words].
    unfold delivered in Do. destruct (q_key o) as [|c k] eqn:K.
    + rewrite bytes_neqb by now apply not_eq_sym. exact IH.
    + destruct (bytes_eqb_spec (c :: k) (d_long d)) as [E|E]; [|exact IH]. constructor; [|exact IH]. destruct Do as [Do|(d' & J & E' & W)]; [discriminate Do|]. apply W.
      assert (d' = d) as -> by (apply (same_long (t_all T)); [exact (s_nodup _ (f_all _ Ft))|exact J|exact I|exact (eq_trans E' E)]). exact S.
Qed.
