(** * Lemmas: options from the command line and the environment. *)
From Verif Require Import Base M_Charset M_Encodings M_Options M_Main S_Main L_Main S_Popm M_Po S_Po.
#[local] Open Scope N_scope.

(** ** Monad *)
Lemma hbind_ok {A C} (a : A) (f : A -> handled C) : hbind (proceed a) f = f a. Proof. reflexivity. Qed.
Lemma hbind_inv {A C} (x : handled A) (f : A -> handled C) c : hbind x f = proceed c -> exists a, x = proceed a /\ f a = proceed c.
Proof. destruct x as [|[a|e|u|]]; cbn; try discriminate. intros H. now exists a. Qed.
Lemma proceed_inj {A} (a b : A) : proceed a = proceed b -> a = b. Proof. unfold proceed. intros H. now injection H. Qed.

(** ** Tables that make sense *)
Record sane (ds : list desc) : Prop := {
  s_nodup : NoDup (map d_long ds);
  s_long : Forall (fun d => d_long d <> [] /\ hd 0 (d_long d) <> 45 /\ ~ In 61 (d_long d)) ds;
  s_short : Forall (fun d => d_short d <> Some 45) ds }.

Lemma bytes_neqb a b : a <> b -> bytes_eqb a b = false.
Proof. destruct (bytes_eqb_spec a b); tauto. Qed.
Lemma bytes_refl a : bytes_eqb a a = true.
Proof. destruct (bytes_eqb_spec a a); tauto. Qed.

Fixpoint nodup_b (l : list bytes) : bool := match l with [] => true | x :: r => negb (existsb (bytes_eqb x) r) && nodup_b r end.
Lemma exists_in x l : existsb (bytes_eqb x) l = true <-> In x l.
Proof.
  rewrite existsb_exists. split.
  - intros (y & I & E). destruct (bytes_eqb_spec x y); [now subst|discriminate].
  - intros I. exists x. split; [exact I|apply bytes_refl].
Qed.
Lemma exists_not x l : existsb (bytes_eqb x) l = false <-> ~ In x l.
Proof. rewrite <- exists_in. destruct (existsb (bytes_eqb x) l); split; congruence. Qed.
Lemma nodup_b_ok l : nodup_b l = true -> NoDup l.
Proof.
  induction l as [|x r IH]; cbn [nodup_b]; intros H; constructor; apply andb_prop in H; destruct H as (A & C).
  - apply exists_not. now destruct (existsb (bytes_eqb x) r).
  - now apply IH.
Qed.
Definition sane_b (ds : list desc) : bool :=
  nodup_b (map d_long ds) &&
  forallb (fun d => negb (bytes_eqb (d_long d) []) && negb (hd 0 (d_long d) =? 45) && negb (existsb (N.eqb 61) (d_long d)) &&
                    match d_short d with Some c => negb (c =? 45) | None => true end) ds.
Lemma sane_ok ds : sane_b ds = true -> sane ds.
Proof.
  unfold sane_b. intros H. apply andb_prop in H. destruct H as (A & C). rewrite forallb_forall in C. constructor.
  - now apply nodup_b_ok.
  - apply Forall_forall. intros d I. specialize (C d I). apply andb_prop in C. destruct C as (C & _). apply andb_prop in C. destruct C as (C & C3).
    apply andb_prop in C. destruct C as (C1 & C2). split; [|split].
    + intros E. rewrite E in C1. discriminate C1.
    + intros E. rewrite E in C2. discriminate C2.
    + intros J. rewrite (proj2 (existsb_exists _ _)) in C3; [discriminate|]. exists 61. split; [exact J|reflexivity].
  - apply Forall_forall. intros d I. specialize (C d I). apply andb_prop in C. destruct C as (_ & C). intros E. rewrite E in C. discriminate C.
Qed.

(** ** Looking up options *)
Lemma filter_one {A} (f : A -> bool) l x : NoDup l -> In x l -> f x = true -> (forall y, In y l -> f y = true -> y = x) -> filter f l = [x].
Proof.
  induction l as [|a r IH]; intros ND I F U; [destruct I|]. cbn [filter]. inversion ND as [|? ? NI ND']; subst.
  assert (E : forall r', (forall y, In y r' -> In y r) -> ~ In x r' -> filter f r' = []).
  { induction r' as [|y r' IH']; intros S N1; [reflexivity|]. cbn [filter]. destruct (f y) eqn:Ey.
    - exfalso. apply N1. left. apply U; [right; apply S; now left|exact Ey].
    - apply IH'; [intros q J; apply S; now right|intros J; apply N1; now right]. }
  destruct I as [->|I].
  - rewrite F. f_equal. apply E; [auto|exact NI].
  - destruct (f a) eqn:Ea.
    + assert (a = x) as -> by (apply U; [now left|exact Ea]). contradiction.
    + apply IH; [exact ND'|exact I|exact F|]. intros y J. apply U. now right.
Qed.
Lemma filter_none {A} (f : A -> bool) l : (forall y, In y l -> f y = false) -> filter f l = [].
Proof. induction l as [|a r IH]; intros H; [reflexivity|]. cbn [filter]. rewrite (H a) by now left. apply IH. intros y J. apply H. now right. Qed.
Lemma nodup_map {A C} (f : A -> C) l : NoDup (map f l) -> NoDup l.
Proof. induction l as [|a r IH]; intros H; constructor; inversion H; subst; [intros I; apply (in_map f) in I; contradiction|auto]. Qed.
Lemma same_long ds d d' : NoDup (map d_long ds) -> In d ds -> In d' ds -> d_long d = d_long d' -> d = d'.
Proof.
  induction ds as [|a r IH]; intros ND I J E; [destruct I|]. inversion ND as [|? ? NI ND']; subst.
  destruct I as [->|I], J as [->|J]; [reflexivity| | |now apply IH].
  - exfalso. apply NI. rewrite E. now apply in_map.
  - exfalso. apply NI. rewrite <- E. now apply in_map.
Qed.

Lemma begins_spec p l : begins_with p l = true <-> exists r, l = p ++ r.
Proof.
  revert l. induction p as [|a p IH]; intros l; cbn [begins_with]; [split; [now exists l|reflexivity]|].
  destruct l as [|c l]; [split; [discriminate|intros (r & E); discriminate E]|]. rewrite andb_true_iff, IH, N.eqb_eq. split.
  - intros (-> & r & ->). now exists r.
  - intros (r & E). cbn in E. injection E as -> ->. split; [reflexivity|now exists r].
Qed.
Lemma long_not_short ds d c : sane ds -> In d ds -> d_long d <> [45; c].
Proof. intros S I E. pose proof (proj1 (Forall_forall _ _) (s_long _ S) d I) as (_ & H & _). rewrite E in H. now apply H. Qed.

Lemma match_long approx p d : d_long d = p -> match_desc approx p d = Full.
Proof. intros <-. unfold match_desc. now rewrite bytes_refl. Qed.
Lemma match_full approx p d : match_desc approx p d = Full <-> d_long d = p \/ exists c, d_short d = Some c /\ p = [45; c].
Proof.
  unfold match_desc. destruct (bytes_eqb_spec (d_long d) p) as [E|E]; [tauto|].
  destruct (d_short d) as [c|].
  - destruct (bytes_eqb_spec [45; c] p) as [F|F].
    + split; [intros _; right; now exists c|reflexivity].
    + destruct (approx && begins_with p (d_long d)); split; try discriminate; intros [|(x & A & C)]; try contradiction; injection A as <-; now symmetry in C.
  - destruct (approx && begins_with p (d_long d)); split; try discriminate; intros [|(x & A & C)]; try contradiction; discriminate.
Qed.
Lemma match_approximate p d : d_long d <> p -> hd 0 p <> 45 -> p <> [] -> (exists r, d_long d = p ++ r) -> match_desc true p d = Approximate.
Proof.
  intros N1 N2 N3 H. unfold match_desc. rewrite (bytes_neqb _ _ N1).
  assert (E : match d_short d with Some c => bytes_eqb [45; c] p | None => false end = false).
  { destruct (d_short d); [|reflexivity]. apply bytes_neqb. intros <-. now apply N2. }
  rewrite E. cbn [andb]. now rewrite (proj2 (begins_spec p (d_long d)) H).
Qed.
Lemma approximate_begins approx p d : match_desc approx p d = Approximate -> exists r, d_long d = p ++ r.
Proof.
  unfold match_desc. destruct (bytes_eqb (d_long d) p); [discriminate|].
  destruct (match d_short d with Some c => bytes_eqb [45; c] p | None => false end); [discriminate|].
  destruct approx; cbn [andb]; [|discriminate]. destruct (begins_with p (d_long d)) eqn:E; [|discriminate]. intros _. now apply begins_spec.
Qed.

Lemma full_one approx ds p d : sane ds -> In d ds -> d_long d = p -> filter (fun d => is_full (match_desc approx p d)) ds = [d].
Proof.
  intros S I E. apply filter_one; [exact (nodup_map _ _ (s_nodup _ S))|exact I|now rewrite match_long|].
  intros y J F. destruct (match_desc approx p y) eqn:M; try discriminate F. apply match_full in M. destruct M as [M|(c & _ & M)].
  - apply (same_long ds); [exact (s_nodup _ S)|exact J|exact I|congruence].
  - exfalso. apply (long_not_short ds d c S I). congruence.
Qed.
Lemma find_name approx ds p d : sane ds -> In d ds -> d_long d = p -> find_desc approx ds p = proceed (Some d).
Proof. intros S I E. unfold find_desc. now rewrite (full_one approx ds p d S I E). Qed.

Lemma prefix_hd (p r : bytes) : p <> [] -> hd 0 (p ++ r) = hd 0 p. Proof. now destruct p. Qed.
Lemma stands_hd ds p d : sane ds -> stands_for ds p d -> hd 0 p <> 45 /\ ~ In 61 p.
Proof.
  intros S (I & N1 & H). pose proof (proj1 (Forall_forall _ _) (s_long _ S) d I) as (_ & A & C).
  destruct H as [->|((r & E) & _)]; [now split|]. rewrite E in A, C. rewrite prefix_hd in A by exact N1. split; [exact A|].
  intros J. apply C. apply in_or_app. now left.
Qed.
Lemma find_stands ds p d : sane ds -> stands_for ds p d -> find_desc true ds p = proceed (Some d).
Proof.
  intros S H. pose proof (stands_hd ds p d S H) as (HH & _). destruct H as (I & N1 & H).
  destruct (bytes_eqb_spec (d_long d) p) as [E|E]; [now apply find_name|]. destruct H as [H|(P & U)]; [now symmetry in H|].
  unfold find_desc. rewrite filter_none.
  - rewrite (filter_one _ ds d); [reflexivity|exact (nodup_map _ _ (s_nodup _ S))|exact I|now rewrite match_approximate|].
    intros y J F. destruct (match_desc true p y) eqn:M; try discriminate F. apply approximate_begins in M. now apply U.
  - intros y J. destruct (match_desc true p y) eqn:M; try reflexivity. exfalso. apply match_full in M. destruct M as [M|(c & _ & ->)].
    + apply E. rewrite <- (U y J); [exact M|]. exists []. now rewrite app_nil_r.
    + now apply HH.
Qed.
Lemma find_letter approx ds c d : sane ds -> letter ds c d -> find_desc approx ds [45; c] = proceed (Some d).
Proof.
  intros S (I & E & U). unfold find_desc.
  rewrite (filter_one _ ds d); [reflexivity|exact (nodup_map _ _ (s_nodup _ S))|exact I| |].
  - rewrite (proj2 (match_full approx [45; c] d)); [reflexivity|]. right. now exists c.
  - intros y J F. destruct (match_desc approx [45; c] y) eqn:M; try discriminate F. apply match_full in M. destruct M as [M|(x & A & C)].
    + now apply (long_not_short ds y c S J) in M.
    + injection C as <-. now apply U.
Qed.
Lemma find_known approx ds p d : find_desc approx ds p = proceed (Some d) -> In d ds.
Proof.
  unfold find_desc. destruct (filter _ ds) as [|a [|? ?]] eqn:E; try discriminate.
  - destruct (filter (fun d => is_approximate (match_desc approx p d)) ds) as [|a [|? ?]] eqn:F; try discriminate. intros H. apply proceed_inj in H. injection H as <-.
    assert (I : In a [a]) by now left. rewrite <- F in I. now apply filter_In in I.
  - intros H. apply proceed_inj in H. injection H as <-. assert (I : In a [a]) by now left. rewrite <- E in I. now apply filter_In in I.
Qed.

(** ** Words of the command line *)
Lemma at_equals_none p : ~ In 61 p -> at_equals p = (p, None).
Proof.
  induction p as [|c p IH]; intros N1; [reflexivity|]. assert (N2 : ~ In 61 p) by (intros I; apply N1; now right). specialize (IH N2).
  destruct (N.eq_dec c 61) as [->|E]; [exfalso; apply N1; now left|].
  change (at_equals (c :: p)) with (match c with 61 => ([], Some p) | _ => (c :: fst (at_equals p), snd (at_equals p)) end).
  rewrite IH. destruct c as [|q]; [reflexivity|]. repeat (destruct q as [q|q|]; try reflexivity). now destruct E.
Qed.
Lemma at_equals_some p v : ~ In 61 p -> at_equals (p ++ 61 :: v) = (p, Some v).
Proof.
  induction p as [|c p IH]; intros N1; [reflexivity|]. assert (N2 : ~ In 61 p) by (intros I; apply N1; now right). specialize (IH N2).
  destruct (N.eq_dec c 61) as [->|E]; [exfalso; apply N1; now left|].
  change (at_equals ((c :: p) ++ 61 :: v)) with (match c with 61 => ([], Some (p ++ 61 :: v)) | _ => (c :: fst (at_equals (p ++ 61 :: v)), snd (at_equals (p ++ 61 :: v))) end).
  rewrite IH. destruct c as [|q]; [reflexivity|]. repeat (destruct q as [q|q|]; try reflexivity). now destruct E.
Qed.
Lemma parse_long_plain p : p <> [] -> ~ In 61 p -> parse_long (B "--" ++ p) = proceed (Some (mkPopt p [] [B "--" ++ p])).
Proof.
  intros N1 N2. destruct p as [|c p]; [now destruct N1|]. change (parse_long (B "--" ++ c :: p)) with
    (match at_equals (c :: p) with
      | (name, None) => proceed (Some (mkPopt name [] [B "--" ++ c :: p]))
      | (_, Some []) => UsageError
      | (name, Some v) => proceed (Some (mkPopt name [v] [B "--" ++ c :: p])) end).
  now rewrite at_equals_none.
Qed.
Lemma parse_long_equals p v : p <> [] -> ~ In 61 p -> v <> [] -> parse_long (B "--" ++ p ++ B "=" ++ v) = proceed (Some (mkPopt p [v] [B "--" ++ p ++ B "=" ++ v])).
Proof.
  intros N1 N2 N3. destruct p as [|c p]; [now destruct N1|]. change (parse_long (B "--" ++ (c :: p) ++ B "=" ++ v)) with
    (match at_equals ((c :: p) ++ 61 :: v) with
      | (name, None) => proceed (Some (mkPopt name [] [B "--" ++ (c :: p) ++ B "=" ++ v]))
      | (_, Some []) => UsageError
      | (name, Some v') => proceed (Some (mkPopt name [v'] [B "--" ++ (c :: p) ++ B "=" ++ v])) end).
  rewrite at_equals_some by exact N2. destruct v; [now destruct N3|reflexivity].
Qed.
Lemma not45 {A} (c : N) (x y : A) : c <> 45 -> (match c with 45 => x | _ => y end) = y.
Proof. intros H. destruct c as [|q]; [reflexivity|]. repeat (destruct q as [q|q|]; try reflexivity). now destruct H. Qed.
Lemma parse_long_other t : hd 0 t <> 45 -> parse_long t = proceed None.
Proof. intros H. destruct t as [|c r]; [reflexivity|]. cbn [hd] in H. unfold parse_long. now apply (not45 c). Qed.
Lemma parse_long_short c r : c <> 45 -> parse_long (45 :: c :: r) = proceed None.
Proof. intros H. unfold parse_long. now apply (not45 c). Qed.
Lemma parse_long_none t : no_option t -> parse_long t = proceed None.
Proof. intros [H| ->]; [now apply parse_long_other|reflexivity]. Qed.
Lemma parse_short_other ds t : hd 0 t <> 45 -> parse_short ds t = proceed None.
Proof. intros H. destruct t as [|c r]; [reflexivity|]. cbn [hd] in H. unfold parse_short. now apply (not45 c). Qed.
Lemma parse_short_none ds t : no_option t -> parse_short ds t = proceed None.
Proof. intros [H| ->]; [now apply parse_short_other|reflexivity]. Qed.
Lemma is_option_no ds t : no_option t -> is_option ds t = proceed false.
Proof. intros H. unfold is_option. rewrite (parse_long_none t H), hbind_ok, (parse_short_none ds t H). reflexivity. Qed.
Lemma no_option_dashes t : no_option t -> bytes_eqb t (B "--") = false.
Proof. intros H. apply bytes_neqb. intros ->. destruct H as [H|H]; [now apply H|discriminate H]. Qed.

Lemma switch_iff d : is_switch d = true <-> takes_nothing d.
Proof. unfold is_switch, takes_nothing. destruct (d_kind d); split; congruence. Qed.
Lemma not_switch d : ~ takes_nothing d -> is_switch d = false.
Proof. intros H. destruct (is_switch d) eqn:E; [now apply switch_iff in E|reflexivity]. Qed.

Lemma finish_switch ds k d ts args : find_desc true ds k = proceed (Some d) -> k <> [] -> takes_nothing d ->
  finish_option ds (mkPopt k [] ts) args = proceed (mkPopt (d_long d) [] ts, args).
Proof.
  intros F N1 S. unfold finish_option. cbn [q_key q_words q_tokens]. rewrite F. cbn [hbind proceed wanted]. destruct k; [now destruct N1|]. now rewrite (proj2 (switch_iff d) S).
Qed.
Lemma finish_value ds k d v ts args : find_desc true ds k = proceed (Some d) -> k <> [] -> ~ takes_nothing d ->
  finish_option ds (mkPopt k [v] ts) args = proceed (mkPopt (d_long d) [v] ts, args).
Proof.
  intros F N1 S. unfold finish_option. cbn [q_key q_words q_tokens]. rewrite F. cbn [hbind proceed wanted]. destruct k; [now destruct N1|]. now rewrite (not_switch d S).
Qed.
Lemma finish_next ds k d v ts args : find_desc true ds k = proceed (Some d) -> k <> [] -> ~ takes_nothing d -> no_option v ->
  finish_option ds (mkPopt k [] ts) (v :: args) = proceed (mkPopt (d_long d) [v] (ts ++ [v]), args).
Proof.
  intros F N1 S N2. unfold finish_option. cbn [q_key q_words q_tokens]. rewrite F. cbn [hbind proceed wanted]. destruct k; [now destruct N1|]. rewrite (not_switch d S), (is_option_no ds v N2). reflexivity.
Qed.

Definition meant (T : tables) (os : list popt) : parsed := map (fun o => (match q_key o with [] => t_name T | k => k end, q_words o)) os.
Definition made_of (os : list popt) (ts : list bytes) : Prop := forall o t, In o os -> In t (q_tokens o) -> In t ts.

(** One step of the loop. *)
Lemma loop_options fuel ds t r os os' rest : parse_long t = proceed None -> parse_short ds t = proceed (Some os) ->
  finish_options ds os r = proceed (os', rest) ->
  parse_tokens (S fuel) ds (t :: r) = hbind (parse_tokens fuel ds rest) (fun ps => proceed (os' ++ ps)).
Proof.
  intros L Sh F. change (parse_tokens (S fuel) ds (t :: r)) with
    (let& l := parse_long t in
     let& s := match l with Some o => proceed (Some [o]) | None => parse_short ds t end in
     match s with
     | Some os => let& (os, rest) := finish_options ds os r in let& ps := parse_tokens fuel ds rest in proceed (os ++ ps)
     | None => if bytes_eqb t (B "--") then proceed (map argument r) else let& ps := parse_tokens fuel ds r in proceed (argument t :: ps)
     end).
  rewrite L, hbind_ok, Sh, hbind_ok, F. reflexivity.
Qed.
Lemma loop_long fuel ds t r o o' rest : parse_long t = proceed (Some o) -> finish_option ds o r = proceed (o', rest) ->
  parse_tokens (S fuel) ds (t :: r) = hbind (parse_tokens fuel ds rest) (fun ps => proceed ([o'] ++ ps)).
Proof.
  intros L F. change (parse_tokens (S fuel) ds (t :: r)) with
    (let& l := parse_long t in
     let& s := match l with Some o => proceed (Some [o]) | None => parse_short ds t end in
     match s with
     | Some os => let& (os, rest) := finish_options ds os r in let& ps := parse_tokens fuel ds rest in proceed (os ++ ps)
     | None => if bytes_eqb t (B "--") then proceed (map argument r) else let& ps := parse_tokens fuel ds r in proceed (argument t :: ps)
     end).
  rewrite L, !hbind_ok. unfold finish_options. rewrite F. reflexivity.
Qed.
Lemma loop_argument fuel ds t r : no_option t ->
  parse_tokens (S fuel) ds (t :: r) = hbind (parse_tokens fuel ds r) (fun ps => proceed ([argument t] ++ ps)).
Proof.
  intros H. change (parse_tokens (S fuel) ds (t :: r)) with
    (let& l := parse_long t in
     let& s := match l with Some o => proceed (Some [o]) | None => parse_short ds t end in
     match s with
     | Some os => let& (os, rest) := finish_options ds os r in let& ps := parse_tokens fuel ds rest in proceed (os ++ ps)
     | None => if bytes_eqb t (B "--") then proceed (map argument r) else let& ps := parse_tokens fuel ds r in proceed (argument t :: ps)
     end).
  rewrite (parse_long_none t H), hbind_ok, (parse_short_none ds t H), hbind_ok, (no_option_dashes t H). reflexivity.
Qed.
Lemma loop_dashes fuel ds r : parse_tokens (S fuel) ds (B "--" :: r) = proceed (map argument r).
Proof. reflexivity. Qed.

(** Groups of switches. *)
Lemma short_group ds t l : sane ds -> forall c cs d, letter ds c d -> takes_nothing d -> Forall2 (letter ds) cs l -> Forall takes_nothing l ->
  exists os, short_loop ds t c cs = proceed os /\ made_of os [t] /\ os <> [] /\
    Forall2 (fun o x => q_key o <> [] /\ find_desc true ds (q_key o) = proceed (Some x) /\ q_words o = []) os (d :: l).
Proof.
  intros S. induction l as [|d' l IH]; intros c cs d L K F N1; inversion F as [|x ? cs' ? L' F']; subst.
  - exists [mkPopt [45; c] [] [t]]. cbn [short_loop]. rewrite (find_letter false ds c d S L). split; [reflexivity|]. split.
    + intros o y [<-|[]] J. exact J.
    + split; [discriminate|]. constructor; [|constructor]. split; [discriminate|]. split; [exact (find_letter true ds c d S L)|reflexivity].
  - inversion N1 as [|? ? K' N1']; subst. destruct (IH x cs' d' L' K' F' N1') as (os & E & M & NE & H).
    exists (mkPopt [45; c] [] [] :: os). cbn [short_loop]. rewrite (find_letter false ds c d S L), hbind_ok, (proj2 (switch_iff d) K), E.
    split; [reflexivity|]. split; [|split].
    + intros o y [<-|I] J; [destruct J|exact (M o y I J)].
    + discriminate.
    + constructor; [|exact H]. split; [discriminate|]. split; [exact (find_letter true ds c d S L)|reflexivity].
Qed.
Lemma finish_group ds l : forall os args ts, made_of os ts -> os <> [] -> Forall takes_nothing l ->
  Forall2 (fun o x => q_key o <> [] /\ find_desc true ds (q_key o) = proceed (Some x) /\ q_words o = []) os l ->
  exists os', finish_options ds os args = proceed (os', args) /\ made_of os' ts /\ map (fun o => (q_key o, q_words o)) os' = map (fun d => (d_long d, [])) l.
Proof.
  induction l as [|d l IH]; intros os args ts M NE K F; inversion F as [|o ? os0 ? (N1 & E & W) F']; subst; [now destruct NE|].
  inversion K as [|? ? K1 K2]; subst. destruct o as [k ws qs]. cbn [q_key q_words q_tokens] in *. subst ws.
  assert (M1 : made_of [mkPopt (d_long d) [] qs] ts).
  { intros y t [<-|[]] J. apply (M (mkPopt k [] qs) t); [now left|exact J]. }
  destruct os0 as [|o' os0].
  - inversion F'; subst. exists [mkPopt (d_long d) [] qs]. cbn [finish_options]. rewrite (finish_switch ds k d qs args E N1 K1). split; [reflexivity|].
    split; [exact M1|reflexivity].
  - destruct (IH (o' :: os0) args ts) as (os' & E' & M' & R').
    { intros y t I. apply M. now right. } { discriminate. } { exact K2. } { exact F'. }
    exists (mkPopt (d_long d) [] qs :: os'). split; [|split].
    + change (finish_options ds (mkPopt k [] qs :: o' :: os0) args) with
        (let& (o, _) := finish_option ds (mkPopt k [] qs) [] in let& (l, rest) := finish_options ds (o' :: os0) args in proceed (o :: l, rest)).
      rewrite (finish_switch ds k d qs [] E N1 K1), hbind_ok, E'. reflexivity.
    + intros y t [<-|I] J; [apply (M1 _ t (or_introl eq_refl) J)|exact (M' y t I J)].
    + cbn [map q_key q_words]. now rewrite R'.
Qed.

Lemma meant_map T l : forall os, Forall (fun d => d_long d <> []) l -> map (fun o => (q_key o, q_words o)) os = map (fun d => (d_long d, [])) l ->
  meant T os = map (fun d => (d_long d, [])) l.
Proof.
  induction l as [|d l IH]; intros [|o os] F E; try discriminate E; [reflexivity|]. inversion F; subst. cbn [map] in E.
  unfold meant in *. cbn [map]. pose proof (f_equal (hd (q_key o, q_words o)) E) as E1. cbn [hd] in E1. pose proof (f_equal (@tl _) E) as E2. cbn [tl] in E2.
  f_equal; [|apply IH; assumption]. rewrite <- E1. pose proof (f_equal fst E1) as E3. cbn [fst] in E3. destruct (q_key o); [congruence|reflexivity].
Qed.

Lemma long_ne ds d : sane ds -> In d ds -> d_long d <> [].
Proof. intros S I. exact (proj1 (proj1 (Forall_forall _ _) (s_long _ S) d I)). Qed.
Lemma key_match {A} (k : bytes) (x : A) (f : bytes -> A) : k <> [] -> match k with [] => x | _ => f k end = f k. Proof. now destruct k. Qed.
Lemma meant_one T k ws ts : k <> [] -> meant T [mkPopt k ws ts] = [(k, ws)].
Proof. intros H. unfold meant. cbn [map q_key q_words]. destruct k; [now destruct H|reflexivity]. Qed.
Lemma made_one k ws ts us : incl ts us -> made_of [mkPopt k ws ts] us.
Proof. intros H o t [<-|[]] J. now apply H. Qed.

Lemma letter_45 ds c d : sane ds -> letter ds c d -> c <> 45.
Proof. intros S (I & E & _) ->. exact (proj1 (Forall_forall _ _) (s_short _ S) d I E). Qed.

Lemma spelt_step T ts ps : sane (t_all T) -> spelt T ts ps ->
  exists os, os <> [] /\ meant T os = ps /\ made_of os ts /\ ts <> [] /\
    forall fuel us, parse_tokens (S fuel) (t_all T) (ts ++ us) = hbind (parse_tokens fuel (t_all T) us) (fun qs => proceed (os ++ qs)).
Proof.
  intros S H. destruct H as [p d P K|cs l N1 F K|p d v P K N1|p d v P K N1|c d v L K N1|c d v L K N1|s N1].
  - pose proof (stands_hd _ _ _ S P) as (_ & NE). pose proof P as (I & NN & _). exists [mkPopt (d_long d) [] [B "--" ++ p]].
    split; [discriminate|]. split; [apply meant_one; exact (long_ne _ _ S I)|]. split; [apply made_one; apply incl_refl|]. split; [discriminate|].
    intros fuel us. apply (loop_long fuel (t_all T) (B "--" ++ p) us (mkPopt p [] [B "--" ++ p])); [now apply parse_long_plain|].
    apply finish_switch; [now apply find_stands|exact NN|exact K].
  - inversion F as [|c d cs' l' L F']; subst; [now destruct N1|]. inversion K as [|? ? K1 K2]; subst.
    destruct (short_group (t_all T) (45 :: c :: cs') l' S c cs' d L K1 F' K2) as (os & E & M & NE & H).
    pose proof (letter_45 _ _ _ S L) as C.
    assert (X : forall us, exists os', finish_options (t_all T) os us = proceed (os', us) /\ made_of os' [45 :: c :: cs'] /\
                  map (fun o => (q_key o, q_words o)) os' = map (fun d => (d_long d, [])) (d :: l')).
    { intros us. apply finish_group; [exact M|exact NE|exact K|exact H]. }
    assert (U : exists os', made_of os' [45 :: c :: cs'] /\ map (fun o => (q_key o, q_words o)) os' = map (fun d => (d_long d, [])) (d :: l') /\
                  forall us, finish_options (t_all T) os us = proceed (os', us)).
    { assert (G : forall l0 os0, Forall takes_nothing l0 -> Forall2 (fun o x => q_key o <> [] /\ find_desc true (t_all T) (q_key o) = proceed (Some x) /\ q_words o = []) os0 l0 ->
                 os0 <> [] -> exists os1, forall us, finish_options (t_all T) os0 us = proceed (os1, us)).
      { clear. induction l0 as [|d l0 IH]; intros os0 K F NE; inversion F as [|o ? os2 ? (A & C & D) F']; subst; [now destruct NE|]. inversion K; subst.
        destruct o as [k ws qs]. cbn [q_key q_words] in *. subst ws. destruct os2 as [|o2 os2].
        - exists [mkPopt (d_long d) [] qs]. intros us. cbn [finish_options]. rewrite (finish_switch (t_all T) k d qs us C A); [reflexivity|assumption].
        - destruct (IH (o2 :: os2)) as (os1 & E1); [assumption|exact F'|discriminate|]. exists (mkPopt (d_long d) [] qs :: os1). intros us.
          change (finish_options (t_all T) (mkPopt k [] qs :: o2 :: os2) us) with
            (let& (o, _) := finish_option (t_all T) (mkPopt k [] qs) [] in let& (l, rest) := finish_options (t_all T) (o2 :: os2) us in proceed (o :: l, rest)).
          rewrite (finish_switch (t_all T) k d qs [] C A) by assumption. rewrite hbind_ok, E1. reflexivity. }
      destruct (G (d :: l') os K H NE) as (os1 & E1). destruct (X []) as (os2 & E2 & M2 & R2). rewrite E1 in E2. apply proceed_inj in E2.
      pose proof (f_equal fst E2) as E3. cbn [fst] in E3. subst os2. exists os1. split; [exact M2|]. split; [exact R2|exact E1]. }
    destruct U as (os' & M' & R' & E'). exists os'. split; [intros ->; discriminate R'|]. split; [|split; [exact M'|split; [discriminate|]]].
    + apply (meant_map T (d :: l')); [|exact R']. constructor.
      * destruct L as (I & _). exact (long_ne _ _ S I).
      * clear -F' S. induction F' as [|c d cs l L _ IH]; constructor; [|exact IH]. destruct L as (I & _). exact (long_ne _ _ S I).
    + intros fuel us. cbn [List.app]. apply (loop_options fuel (t_all T) (45 :: c :: cs') us os os' us); [now apply parse_long_short| |apply E'].
      unfold parse_short. rewrite (proj2 (N.eqb_neq c 45) C), E. reflexivity.
  - pose proof (stands_hd _ _ _ S P) as (_ & NE). pose proof P as (I & NN & _). exists [mkPopt (d_long d) [v] [B "--" ++ p ++ B "=" ++ v]].
    split; [discriminate|]. split; [apply meant_one; exact (long_ne _ _ S I)|]. split; [apply made_one; apply incl_refl|]. split; [discriminate|].
    intros fuel us. apply (loop_long fuel (t_all T) (B "--" ++ p ++ B "=" ++ v) us (mkPopt p [v] [B "--" ++ p ++ B "=" ++ v])); [now apply parse_long_equals|].
    apply finish_value; [now apply find_stands|exact NN|exact K].
  - pose proof (stands_hd _ _ _ S P) as (_ & NE). pose proof P as (I & NN & _). exists [mkPopt (d_long d) [v] ([B "--" ++ p] ++ [v])].
    split; [discriminate|]. split; [apply meant_one; exact (long_ne _ _ S I)|]. split; [apply made_one; apply incl_refl|]. split; [discriminate|].
    intros fuel us. apply (loop_long fuel (t_all T) (B "--" ++ p) (v :: us) (mkPopt p [] [B "--" ++ p])); [now apply parse_long_plain|].
    apply finish_next; [now apply find_stands|exact NN|exact K|exact N1].
  - pose proof (letter_45 _ _ _ S L) as C. pose proof L as (I & _). exists [mkPopt (d_long d) [v] [[45; c] ++ v]].
    split; [discriminate|]. split; [apply meant_one; exact (long_ne _ _ S I)|]. split; [apply made_one; apply incl_refl|]. split; [discriminate|].
    intros fuel us. apply (loop_options fuel (t_all T) ([45; c] ++ v) us [mkPopt [45; c] [v] [[45; c] ++ v]]); [now apply parse_long_short| |].
    + cbn [List.app]. unfold parse_short. rewrite (proj2 (N.eqb_neq c 45) C). destruct v as [|x v]; [now destruct N1|]. cbn [short_loop].
      rewrite (find_letter false _ c d S L), hbind_ok, (not_switch d K). reflexivity.
    + cbn [finish_options]. rewrite (finish_value _ _ d v _ us (find_letter true _ c d S L)); [reflexivity|discriminate|exact K].
  - pose proof (letter_45 _ _ _ S L) as C. pose proof L as (I & _). exists [mkPopt (d_long d) [v] ([[45; c]] ++ [v])].
    split; [discriminate|]. split; [apply meant_one; exact (long_ne _ _ S I)|]. split; [apply made_one; apply incl_refl|]. split; [discriminate|].
    intros fuel us. apply (loop_options fuel (t_all T) [45; c] (v :: us) [mkPopt [45; c] [] [[45; c]]]); [now apply parse_long_short| |].
    + unfold parse_short. rewrite (proj2 (N.eqb_neq c 45) C). cbn [short_loop]. rewrite (find_letter false _ c d S L). reflexivity.
    + cbn [finish_options]. rewrite (finish_next _ _ d v _ us (find_letter true _ c d S L)); [reflexivity|discriminate|exact K|exact N1].
  - exists [argument s]. split; [discriminate|]. split; [reflexivity|]. split; [apply made_one; apply incl_refl|]. split; [discriminate|].
    intros fuel us. now apply loop_argument.
Qed.

Lemma line_parsed T ts ps : sane (t_all T) -> line T ts ps -> forall fuel, (List.length ts <= fuel)%nat ->
  exists os, parse_tokens fuel (t_all T) ts = proceed os /\ meant T os = ps /\ made_of os ts.
Proof.
  intros S H. induction H as [|l|ts ps us qs P L IH]; intros fuel F.
  - exists []. split; [destruct fuel; reflexivity|]. split; [reflexivity|]. intros o t [].
  - destruct fuel as [|fuel]; [cbn in F; lia|]. exists (map argument l). split; [apply loop_dashes|]. split.
    + unfold meant. rewrite map_map. reflexivity.
    + intros o t I J. apply in_map_iff in I. destruct I as (s & <- & I). destruct J as [<-|[]]. now right.
  - destruct (spelt_step T ts ps S P) as (os & NE & M & D & NT & St). destruct fuel as [|fuel].
    { destruct ts; [now destruct NT|cbn in F; lia]. }
    destruct (IH fuel) as (os' & E & M' & D').
    { destruct ts; [now destruct NT|]. cbn in F. rewrite app_length in F. lia. }
    exists (os ++ os'). split; [|split].
    + rewrite St, E. reflexivity.
    + unfold meant in *. rewrite map_app, M, M'. reflexivity.
    + intros o t I J. apply in_or_app. apply in_app_or in I. destruct I as [I|I]; [left; exact (D o t I J)|right; exact (D' o t I J)].
Qed.

Lemma named_ok name room os : match room with None => True | Some n => (List.length (filter (fun o => bytes_eqb (q_key o) []) os) <= n)%nat end ->
  name_arguments name room os = proceed (map (fun o => mkPopt (match q_key o with [] => name | k => k end) (q_words o) (q_tokens o)) os).
Proof.
  revert room. induction os as [|o os IH]; intros room R; [reflexivity|]. cbn [name_arguments map filter] in *.
  destruct o as [[|c k] ws ts]; cbn [q_key q_words q_tokens] in *.
  - destruct room as [[|n]|].
    + cbn in R. lia.
    + rewrite (IH (Some n)); [reflexivity|]. cbn in R. lia.
    + rewrite (IH None); [reflexivity|exact Logic.I].
  - destruct room as [[|n]|]; (rewrite IH; [reflexivity|]); cbn in R |- *; lia || exact Logic.I || exact R.
Qed.
Lemma empties_arguments T os : (List.length (filter (fun o => bytes_eqb (q_key o) []) os) <= arguments T (meant T os))%nat.
Proof.
  unfold arguments, meant. induction os as [|o os IH]; [cbn; lia|]. cbn [map filter fst].
  destruct o as [[|c k] ws ts]; cbn [q_key q_words].
  - rewrite !bytes_refl. cbn [List.length]. lia.
  - change (bytes_eqb (c :: k) []) with false. destruct (bytes_eqb (c :: k) (t_name T)); cbn [List.length]; lia.
Qed.
Lemma line_meant T ts ps : sane (t_all T) -> line T ts ps -> enough_room T ps ->
  exists os, parse_line (t_all T) (t_name T) (t_room T) ts = proceed os /\ map (fun o => (q_key o, q_words o)) os = ps /\ made_of os ts.
Proof.
  intros S L R. destruct (line_parsed T ts ps S L (List.length ts) (le_n _)) as (os & E & M & D).
  exists (map (fun o => mkPopt (match q_key o with [] => t_name T | k => k end) (q_words o) (q_tokens o)) os).
  unfold parse_line. rewrite E, hbind_ok. split; [|split].
  - apply named_ok. unfold enough_room in R. destruct (t_room T) as [n|]; [|exact Logic.I]. rewrite <- M in R. pose proof (empties_arguments T os). lia.
  - rewrite map_map. rewrite <- M. reflexivity.
  - intros o t I J. apply in_map_iff in I. destruct I as (o' & <- & I). exact (D o' t I J).
Qed.
