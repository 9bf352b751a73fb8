(** * Lemmas: options of the sub-commands that change files. *)
From Verif Require Import Base M_Ints M_Stream M_Id3v1 M_Payload M_Frame M_Charset M_TextId M_Lookup M_Read M_Fs M_Split M_Rename M_Tagset M_Process M_Dirent M_Popm M_Cmds M_Xtag S_Popm M_Options S_Options L_Process.
#[local] Open Scope N_scope.

Lemma conclude_two r fs : ended_with (conclude_run r fs) 2 <-> r = UsageError.
Proof.
  unfold ended_with, conclude_run. destruct r as [|[m|e|u|]]; cbn [fst snd]; try (split; congruence).
  split; [|discriminate]. destruct (m fs) as [l [[] fs1]]; cbn [fst snd]; discriminate.
Qed.
Lemma conclude_usage fs : untouched (conclude_run UsageError fs) fs.
Proof. split; reflexivity. Qed.
Lemma hbind_usage {A C} (x : handled A) (f : A -> handled C) : hbind x f = UsageError <-> x = UsageError \/ exists a, x = Handled (Ok a) /\ f a = UsageError.
Proof.
  destruct x as [|[a|e|u|]]; cbn [hbind]; split; intros H; try discriminate; auto.
  - right. eauto.
  - destruct H as [H|(b & E & H)]; [discriminate|congruence].
  - destruct H as [H|(b & E & H)]; discriminate.
  - destruct H as [H|(b & E & H)]; discriminate.
  - destruct H as [H|(b & E & H)]; discriminate.
Qed.
Lemma hbind_ok {A C} (x : handled A) (f : A -> handled C) c : hbind x f = Handled (Ok c) <-> exists a, x = Handled (Ok a) /\ f a = Handled (Ok c).
Proof.
  destruct x as [|[a|e|u|]]; cbn [hbind]; split; intros H; try discriminate; eauto; destruct H as (b & E & H); try discriminate; congruence.
Qed.

Lemma popm_usage vm : popm_options vm = UsageError <-> popm_misuse vm.
Proof.
  unfold popm_options, popm_misuse, required, wanted, creation. destruct (pv_args vm) as [|a l]; cbn [hbind proceed]; [split; auto|].
  assert (X : forall P : Prop, (a :: l = [] \/ P) <-> P) by (intros P; split; [intros [E|H]; [discriminate|exact H]|auto]). rewrite X. clear X.
  destruct (pv_rating vm) as [s|].
  2:{ cbn [hbind]. destruct (pv_pcnt_only vm), (pv_popm_only vm), (pv_increment vm), (pv_count vm), (pv_create vm), (pv_always vm); cbn [hbind];
      (split; [intros H; first [discriminate H|right; repeat first [left; split; congruence|right]; split; congruence]
              |intros [(s & E & _)|[[E1 E2]|[[E1 E2]|[E1 E2]]]]; first [reflexivity|congruence]]). }
  destruct (rating_from_text s) eqn:R; cbn [hbind].
  - destruct (pv_pcnt_only vm), (pv_popm_only vm), (pv_increment vm), (pv_count vm), (pv_create vm), (pv_always vm); cbn [hbind];
      (split; [intros H; first [discriminate H|right; repeat first [left; split; congruence|right]; split; congruence]
              |intros [(s1 & E & E3)|[[E1 E2]|[[E1 E2]|[E1 E2]]]]; first [reflexivity|congruence]]).
  - split; [intros _; left; eauto|reflexivity].
Qed.
Lemma popm_run_usage z passes e entries w vm fs : ended_with (run_popm z passes e entries w vm fs) 2 <-> popm_misuse vm.
Proof.
  unfold run_popm. rewrite conclude_two, hbind_usage, popm_usage. split; [|auto]. intros [H|([[o c] p] & _ & H)]; [exact H|discriminate].
Qed.

Lemma xtag_usage vm : xtag_options vm = UsageError <-> xtag_misuse vm.
Proof.
  unfold xtag_options, xtag_misuse, required, checked, xtag_args. destruct (xv_args vm) as [|a l]; cbn [hbind proceed]; [split; auto|].
  destruct (xv_create vm), (xv_always vm), (xv_get vm), (xv_xtags vm); cbn [bind];
    (split; [intros H; first [discriminate H|right; repeat first [left; split; congruence|right]; split; congruence]
            |intros [E|[[E1 E2]|[E1 E2]]]; first [reflexivity|congruence]]).
Qed.
Lemma xtag_run_usage z passes e entries w vm fs : ended_with (run_xtag z passes e entries w vm fs) 2 <-> xtag_misuse vm.
Proof.
  unfold run_xtag. rewrite conclude_two, hbind_usage, xtag_usage. split; [|auto]. intros [H|([o p] & _ & H)]; [exact H|discriminate].
Qed.

Lemma text_usage loc vm : text_options loc vm = UsageError <->
  tv_args vm = [] \/ ((tv_create vm = true /\ tv_always vm = true) /\ (exists src, tv_encoding vm = Some src \/ (tv_encoding vm = None /\ loc = Ok src)) /\
                      exists ks, text_dels (given (tv_delete vm)) = Ok ks).
Proof.
  unfold text_options, required. destruct (tv_args vm) as [|a l]; cbn [hbind proceed]; [split; auto|].
  destruct (match tv_encoding vm with Some x => Ok x | None => loc end) as [src|x|u|] eqn:S1; cbn [hbind].
  2,3,4: split; [discriminate|]; intros [H|(_ & (src & [K|[K1 K2]]) & _)]; [discriminate|rewrite K in S1; discriminate|rewrite K1, K2 in S1; discriminate].
  assert (SE : exists src, tv_encoding vm = Some src \/ (tv_encoding vm = None /\ loc = Ok src)) by (destruct (tv_encoding vm); eauto).
  destruct (text_dels (given (tv_delete vm))) as [ks|x|u|]; cbn [hbind].
  2,3,4: split; [discriminate|]; intros [H|(_ & _ & ks & K)]; discriminate.
  unfold text_policies. destruct (tv_create vm), (tv_always vm); cbn [bind checked]; [|destruct (given (tv_tag vm)); cbn [hbind]..].
  1: cbn [hbind]; split; eauto 9. all: split; [discriminate|]; intros [H|([K1 K2] & _)]; discriminate.
Qed.
Lemma text_run_usage z passes e entries w loc vm fs : ended_with (run_text z passes e entries w loc vm fs) 2 <->
  tv_args vm = [] \/ ((tv_create vm = true /\ tv_always vm = true) /\ (exists src, tv_encoding vm = Some src \/ (tv_encoding vm = None /\ loc = Ok src)) /\
                      exists ks, text_dels (given (tv_delete vm)) = Ok ks).
Proof.
  unfold run_text. rewrite conclude_two, hbind_usage, text_usage. split; [|auto]. intros [H|([o p] & _ & H)]; [exact H|discriminate].
Qed.

Lemma checked_usage {A} (x : outcome A) : checked x = UsageError <-> exists e, x = Throw e.
Proof. destruct x; cbn; split; intros H; try discriminate; eauto; destruct H as (e' & H); discriminate. Qed.
Lemma textual_throws number close free : (forall n, number = Some n -> n < 192) ->
  let k := (match number with Some _ => 1 | None => 0 end) + text_given (Some close) + text_given (Some free) in
  (k <> 1 <-> exists e, textual_genre (match number with Some n => n | None => 255 end) close free = Throw e) /\
  (k = 1 <-> exists r, textual_genre (match number with Some n => n | None => 255 end) close free = Ok r).
Proof.
  intros B1. unfold textual_genre, text_given. destruct number as [n|].
  - assert (E : negb (n =? 255) = true) by (specialize (B1 n eq_refl); apply negb_true_iff, N.eqb_neq; lia). rewrite E.
    destruct close, free; cbn; split; split; intros H; try lia; try discriminate; eauto; try (destruct H; discriminate).
  - cbn. destruct close, free; cbn; split; split; intros H; try lia; try discriminate; eauto; try (destruct H; discriminate).
Qed.
Lemma scope_throws v1_only v2_only tags :
  (v1_only = true /\ (v2_only = true \/ tags <> []) <-> exists e, scope_for_args v1_only v2_only tags = Throw e) /\
  (~ (v1_only = true /\ (v2_only = true \/ tags <> [])) <-> exists r, scope_for_args v1_only v2_only tags = Ok r).
Proof.
  unfold scope_for_args. destruct v1_only, v2_only, tags; split; split; intros H; try discriminate; eauto;
    try (destruct H as (x & H); discriminate H); try (destruct H as [H1 [H2|H2]]; congruence);
    try (intros [H1 [H2|H2]]; congruence); try (split; [reflexivity|]; first [now left|right; discriminate]);
    try (exfalso; apply H; split; [reflexivity|]; first [now left|right; discriminate]).
Qed.
Lemma creation_throws v2 v2a v1 v1a :
  ((v2 = true /\ v2a = true) \/ (v1 = true /\ v1a = true) <-> exists e, creation_for_args v2 v2a v1 v1a = Throw e) /\
  (~ ((v2 = true /\ v2a = true) \/ (v1 = true /\ v1a = true)) <-> exists r, creation_for_args v2 v2a v1 v1a = Ok r).
Proof.
  unfold creation_for_args. destruct v2, v2a, v1, v1a; split; split; intros H; try discriminate; eauto;
    try (destruct H as (x & H); discriminate H); try tauto; try (intros [[H1 H2]|[H1 H2]]; congruence); try (destruct H as [[H1 H2]|[H1 H2]]; congruence).
Qed.

Lemma genre_usage w vm : genre_options w vm = UsageError <-> genre_misuse vm.
Proof.
  unfold genre_options, genre_misuse.
  assert (NB : (exists n, gv_winamp vm = Some n /\ 192 <= n) \/ (forall n, gv_winamp vm = Some n -> n < 192)).
  { destruct (gv_winamp vm) as [n|]; [|right; discriminate]. destruct (N.lt_ge_cases n 192); [right|left]; [intros m E; congruence|eauto]. }
  destruct NB as [(n & E & G)|NB].
  { rewrite E. assert (F : n <? 192 = false) by (apply N.ltb_ge; exact G). rewrite F. cbn [hbind]. split; [left; eauto|reflexivity]. }
  replace (match gv_winamp vm with Some n => if n <? 192 then proceed n else UsageError | None => proceed 255 end)
    with (proceed (match gv_winamp vm with Some n => n | None => 255 end))
    by (destruct (gv_winamp vm) as [n|]; [rewrite (proj2 (N.ltb_lt _ _) (NB n eq_refl))|]; reflexivity).
  cbn [hbind proceed].
  assert (X : forall P : Prop, ((exists n, gv_winamp vm = Some n /\ 192 <= n) \/ P) <-> P).
  { intros P. split; [|auto]. intros [(n & E & G)|H]; [|exact H]. specialize (NB n E). lia. }
  rewrite X. clear X. destruct (gv_list vm); [split; [discriminate|intros [H _]; discriminate]|].
  assert (X : forall P : Prop, (false = false /\ P) <-> P) by (intros P; tauto). rewrite X. clear X.
  destruct (gv_args vm) as [|a l]; [split; auto|].
  assert (X : forall P : Prop, (a :: l = [] \/ P) <-> P) by (intros P; split; [intros [E|H]; [discriminate|exact H]|auto]). rewrite X. clear X.
  set (close := match gv_genre vm with Some s => s | None => [] end). set (free := match gv_Genre vm with Some s => s | None => [] end).
  pose proof (textual_throws (gv_winamp vm) close free NB) as [T1 T2].
  assert (WK : (match gv_winamp vm with Some _ => 1 | None => 0 end) + text_given (Some close) + text_given (Some free) = ways vm).
  { unfold ways, close, free. destruct (gv_genre vm) as [[|]|], (gv_Genre vm) as [[|]|]; reflexivity. }
  cbn zeta in T1, T2. rewrite WK in T1, T2.
  pose proof (scope_throws (gv_v1_only vm) (gv_v2_only vm) (given (gv_tag vm))) as [S1 S2].
  pose proof (creation_throws (gv_create_v2 vm) (gv_always_v2 vm) (gv_create_v1 vm) (gv_always_v1 vm)) as [C1 C2].
  rewrite hbind_usage, checked_usage, <- T1. destruct (N.eq_dec (ways vm) 1) as [W|W]; [|split; auto].
  destruct (proj1 T2 W) as ([text best] & ET). rewrite ET.
  assert (X : forall P : Prop, (ways vm <> 1 \/ P) <-> P) by (intros P; split; [intros [E|H]; [contradiction|exact H]|auto]). rewrite !X. clear X.
  split.
  - intros (r & ER & H). cbn [checked] in ER. injection ER as <-. apply hbind_usage in H as [H|([v2s v1s] & ES & H)].
    { left. apply S1. now apply checked_usage. }
    right. apply hbind_usage in H as [H|([c2 c1] & EC & H)]; [apply C1; now apply checked_usage|].
    destruct (make_genre _ _ _ _ _); discriminate.
  - intros H. exists (text, best). split; [reflexivity|]. cbn iota.
    assert (D : (exists e, scope_for_args (gv_v1_only vm) (gv_v2_only vm) (given (gv_tag vm)) = Throw e) \/
                (exists r, scope_for_args (gv_v1_only vm) (gv_v2_only vm) (given (gv_tag vm)) = Ok r)).
    { unfold scope_for_args. destruct (gv_v1_only vm), (gv_v2_only vm), (given (gv_tag vm)); eauto. }
    destruct D as [(x & EX)|([v2s v1s] & EX)]; rewrite EX; cbn [checked hbind]; [reflexivity|].
    destruct H as [H|H]; [apply S1 in H as (x & H); congruence|]. apply C1 in H as (x & H). now rewrite H.
Qed.
Lemma genre_run_usage z passes e entries w vm fs : ended_with (run_genre z passes e entries w vm fs) 2 <-> genre_misuse vm.
Proof.
  unfold run_genre. rewrite conclude_two, hbind_usage, genre_usage. split; [|auto]. intros [H|([[g p]|] & _ & H)]; [exact H|discriminate|discriminate].
Qed.

(** ** Dry runs *)
Definition pure (m : FS unit) : Prop := forall fs, fst (m fs) = [] /\ snd (snd (m fs)) = fs.
Lemma each_pure f l : (forall p, pure (f p)) -> pure (each f l).
Proof.
  intros H. induction l as [|p l IH]; intros fs; cbn [each]; [split; reflexivity|].
  unfold fbind. specialize (H p fs). destruct (f p fs) as [t [[|x|u|] fs1]]; cbn [fst snd] in *; destruct H as [-> ->]; auto.
  specialize (IH fs). destruct (each f l fs) as [t r]; cbn [fst snd] in *. exact IH.
Qed.
Lemma dirent_pure cwd visit entries fuel : (forall p, pure (visit p)) -> forall p, pure (dirent cwd visit entries fuel p).
Proof.
  intros H. induction fuel as [|fuel IH]; intros p fs; cbn [dirent]; destruct (is_dir fs _); try (split; reflexivity);
    try (destruct (M_Rename.is_regular _ _ _); [apply H|split; reflexivity]).
  apply each_pure. exact IH.
Qed.
Lemma over_dry {S} z passes e entries (P : processor S) s p args : p_dry p = true -> pure (over_files z passes e entries P s p args).
Proof.
  intros D fs. unfold over_files, process_dirent_args. apply each_pure. intros q. apply dirent_pure. clear q. intros q fs'.
  pose proof (process_dry z passes e P p q s fs' D) as [H1 H2]. unfold fbind.
  destruct (process_file z passes e P p q s fs') as [t [[|x|u|] fs1]]; cbn [fst snd fret] in *; subst; split; reflexivity.
Qed.
Lemma conclude_pure r fs : (forall m, r = Handled (Ok m) -> pure m) -> untouched (conclude_run r fs) fs.
Proof.
  intros H. unfold untouched, conclude_run. destruct r as [|[m|x|u|]]; try (split; reflexivity). specialize (H m eq_refl fs).
  destruct (m fs) as [t [[|x|u|] fs1]]; exact H.
Qed.
Lemma popm_dry z passes e entries w vm fs : pv_dry vm = true -> untouched (run_popm z passes e entries w vm fs) fs.
Proof.
  intros D. apply conclude_pure. intros m H. apply hbind_ok in H as ([[o c] p] & EO & H). injection H as <-. apply over_dry.
  unfold popm_options in EO. apply hbind_ok in EO as (? & _ & EO). apply hbind_ok in EO as (r & _ & EO). apply hbind_ok in EO as (f & _ & EO).
  apply hbind_ok in EO as ([pc pol] & EC & EO). apply hbind_ok in EO as (? & ? & EO). injection EO as <- <- <-. exact D.
Qed.
Lemma genre_dry z passes e entries w vm fs : gv_dry vm = true -> untouched (run_genre z passes e entries w vm fs) fs.
Proof.
  intros D. apply conclude_pure. intros m H. apply hbind_ok in H as ([[g p]|] & EO & H); injection H as <-; [|intros fs'; split; reflexivity].
  apply over_dry. unfold genre_options in EO. apply hbind_ok in EO as (n & _ & EO). destruct (gv_list vm); [discriminate|].
  destruct (gv_args vm); [discriminate|]. apply hbind_ok in EO as ([text best] & _ & EO). apply hbind_ok in EO as ([v2s v1s] & _ & EO).
  apply hbind_ok in EO as ([c2 c1] & _ & EO). apply hbind_ok in EO as (g' & _ & EO). injection EO as <- <-. exact D.
Qed.
Lemma xtag_dry z passes e entries w vm fs : xv_dry vm = true -> xv_get vm = false -> untouched (run_xtag z passes e entries w vm fs) fs.
Proof.
  intros D G. apply conclude_pure. intros m H. apply hbind_ok in H as ([o p] & EO & H). injection H as <-. apply over_dry.
  unfold xtag_options in EO. apply hbind_ok in EO as (u & _ & EO). unfold xtag_args in EO. rewrite G, D in EO.
  destruct (match xv_always vm, xv_create vm with true, true => _ | _, _ => _ end) as [c|x|k|]; cbn [bind checked] in EO; try discriminate.
  destruct (xv_xtags vm); [|discriminate]. cbn [checked] in EO. injection EO as _ <-. reflexivity.
Qed.

(** ** Which tags, which texts *)
Lemma popm_tag_ignored vm : popm_options vm = popm_options (without_tag vm).
Proof. reflexivity. Qed.
Lemma popm_all_tags vm o c p : popm_options vm = Handled (Ok (o, c, p)) -> p_v2_scope p = TagsAll.
Proof.
  unfold popm_options. intros EO. apply hbind_ok in EO as (? & _ & EO). apply hbind_ok in EO as (r & _ & EO). apply hbind_ok in EO as (f & _ & EO).
  apply hbind_ok in EO as ([pc pol] & EC & EO). apply hbind_ok in EO as (? & ? & EO). injection EO as _ _ <-. reflexivity.
Qed.
Lemma popm_default vm o c p : popm_options vm = Handled (Ok (o, c, p)) ->
  match pv_increment vm, pv_count vm with
  | Some n, _ => o_increment o = true /\ o_count o = n
  | None, Some n => o_increment o = false /\ o_count o = n
  | None, None => o_increment o = true /\ o_count o = 1
  end.
Proof.
  unfold popm_options. intros EO. apply hbind_ok in EO as (? & _ & EO). apply hbind_ok in EO as (r & _ & EO). apply hbind_ok in EO as (f & _ & EO).
  apply hbind_ok in EO as ([pc pol] & EC & EO). apply hbind_ok in EO as (? & _ & EO). injection EO as <- _ _. cbn [o_increment o_count].
  destruct (pv_increment vm), (pv_count vm); try discriminate; injection EC as <- <-; auto.
Qed.

Lemma text_sets loc vm o p : text_options loc vm = Handled (Ok (o, p)) ->
  (forall k s, In (k, s) (to_sets o) <-> text_option vm k = Some s) /\ NoDup (map fst (to_sets o)) /\
  Forall2 (fun s k => tframe_of_name s = Ok k) (given (tv_delete vm)) (to_dels o) /\
  p_v2_scope p = match given (tv_tag vm) with [] => TagsAll | l => TagsSome l end.
Proof.
  unfold text_options. intros EO. apply hbind_ok in EO as (? & _ & EO). apply hbind_ok in EO as (src & _ & EO). apply hbind_ok in EO as (ks & EK & EO).
  apply hbind_ok in EO as (p' & EP & EO). injection EO as <- <-. cbn [to_sets to_dels]. split; [|split; [|split]].
  - intros k s. unfold text_adds. rewrite !in_app_iff.
    assert (X : forall k0 (o : option bytes), In (k, s) (match o with Some s => [(k0, s)] | None => [] end) <-> k = k0 /\ o = Some s).
    { intros k0 [s0|]; cbn [In]; split; intros H; try tauto; try (destruct H as [_ H]; discriminate).
      - destruct H as [H|[]]. injection H as <- <-. auto.
      - destruct H as [-> H]. left. congruence. }
    rewrite !X. destruct k; cbn [text_option]; intuition congruence.
  - unfold text_adds. destruct (tv_album vm), (tv_genre vm), (tv_encoded_by vm), (tv_title vm), (tv_artist vm), (tv_track vm), (tv_year vm);
      cbn [app map fst]; repeat (constructor; [cbn [In]; intros X; repeat destruct X as [X|X]; try discriminate X; exact X|]); constructor.
  - assert (EK' : text_dels (given (tv_delete vm)) = Ok ks) by congruence. clear -EK'. revert ks EK'.
    induction (given (tv_delete vm)) as [|s l IH]; intros ks E; cbn [text_dels] in E; [injection E as <-; constructor|].
    apply bind_ok in E as (k & E1 & E). apply bind_ok in E as (r & E2 & E). injection E as <-. constructor; auto.
  - unfold text_policies in EP. destruct (tv_always vm), (tv_create vm), (given (tv_tag vm)); cbn [bind checked] in EP; try discriminate; injection EP as <-; reflexivity.
Qed.

Lemma v1_number l n : numeral l n -> lex_uchar l <> Some n.
Proof.
  unfold numeral, lex_uchar. intros (D & F & V). destruct l as [|c [|]]; try discriminate. inversion F as [|? ? DC _]. unfold digit in DC.
  intros E. injection E as <-. cbn in V. lia.
Qed.

(** ** The first failure *)
Lemma stops {S} z passes e entries (P : processor S) s p path rest fs x t fs1 :
  M_Rename.is_regular (e_cwd e) fs path = true -> is_dir fs (resolve (e_cwd e) path) = false ->
  process_file z passes e P p path s fs = (t, (Throw x, fs1)) ->
  over_files z passes e entries P s p (path :: rest) fs = (t, (Throw x, fs1)).
Proof.
  intros R D E. unfold over_files, process_dirent_args. cbn [each]. unfold fbind at 1. cbn [dirent]. rewrite D, R. unfold fbind. now rewrite E.
Qed.
