(** * Lemmas for C80: ID3v1 tags. *)
From Verif Require Import Base M_Ints M_Stream M_Id3v1 M_Charset M_Fs M_Process M_Scheme M_Scheme2 S_Charset S_Id3v1 S_Stream S_Scheme3
  L_Charset L_Id3v1 L_Id3v1b L_Id3v1c L_Fs L_Process L_Scheme2 L_Scheme3 L_Scheme5.
#[local] Open Scope N_scope.

Lemma no_tail_trim s : no_trailing s -> rtrim s = s.
Proof. apply rtrim_id. Qed.
Lemma rtrim_blank t : Forall (fun c => c = 0 \/ c = 32) t -> rtrim t = [].
Proof. induction 1 as [|c r H _ IH]; [reflexivity|]. cbn [rtrim]. rewrite IH. destruct H as [-> | ->]; reflexivity. Qed.
Lemma rtrim_app s t : rtrim t = [] -> rtrim (s ++ t) = rtrim s.
Proof. intros H. induction s as [|c s IH]; [exact H|]. cbn [app rtrim]. now rewrite IH. Qed.
Lemma rtrim_trimmed out s : trimmed out s -> rtrim out = s.
Proof. intros (t & -> & HT & HS). rewrite rtrim_app by (now apply rtrim_blank). now apply rtrim_id. Qed.

Lemma fixed_len n x : len (fixed n x) = n.
Proof. unfold fixed. rewrite len_app, len_takeN, len_repeatN. lia. Qed.
Lemma fixed_nil n : fixed n [] = repeatN 0 n.
Proof. unfold fixed. change (len (@nil N)) with 0. rewrite N.sub_0_r. rewrite takeN_all by (cbn; lia). reflexivity. Qed.
Lemma fixed_cut n m x : n <= m -> takeN n (fixed m x) = fixed n x.
Proof.
  intros H. rewrite <- !vresize_fixed. unfold vresize. rewrite takeN_takeN, N.min_l by exact H.
  replace m with (n + (m - n)) by lia. rewrite repeatN_add, app_assoc, takeN_app_le; [reflexivity|]. rewrite len_app, len_repeatN. lia.
Qed.

Lemma shown_text G e r n b s : 0 < n -> v1_text G e r n b s ->
  gbind (glift (to_string (g_ic G) (fixed n b) e E_UTF_8 r)) (fun x => from_stringn G x) = GOk (SStr s).
Proof.
  intros Hn (out & H1 & H2 & H3 & H4). unfold to_string. change (negb (char_unit E_UTF_8)) with false. cbv iota.
  destruct (fixed n b) as [|c x] eqn:E; [pose proof (fixed_len n b) as L; rewrite E in L; cbn in L; lia|].
  rewrite H1. cbn [glift gbind]. rewrite drop_bom_id by exact H2. rewrite (rtrim_trimmed _ _ H3). unfold from_stringn. now rewrite H4.
Qed.
Lemma stored_given G s b : v1_stored G s b -> exists l, to_cstring G (SStr s) = GOk l /\
  (l = [] /\ b = [] \/ l <> [] /\ glift (to_bytes (g_ic G) l E_UTF_8 E_UTF_8 false NoFail) = GOk b) /\ no_nul b.
Proof.
  intros (H1 & l & H2 & H3 & H4). exists l. split.
  { unfold to_cstring, to_locale. rewrite (to_utf8_ok s H1). cbn [gbind]. rewrite H2. cbn [gbind]. now rewrite (c_str_id l H3). }
  destruct H4 as [[-> ->]|(H4 & H5 & H6 & H7)]; [split; [left; auto|intros []]|]. split; [right; split; [exact H4|]|exact H7].
  rewrite (to_bytes_short _ l _ _ _ _ b); auto.
Qed.
Lemma put_any G mk l b t : (l = [] /\ b = [] \/ l <> [] /\ glift (to_bytes (g_ic G) l E_UTF_8 E_UTF_8 false NoFail) = GOk b) ->
  b = [] /\ v1_put G mk l t = GOk t \/ v1_put G mk l t = GOk (v1_apply t (mk b)).
Proof.
  intros [[-> ->]|[H1 H2]]; [left; auto|right]. unfold v1_put. destruct l; [congruence|]. now rewrite H2.
Qed.
Ltac put H := destruct (put_any _ _ _ _ _ H) as [[-> ->]| ->]; [now rewrite fixed_nil|cbn [v1_apply]; now rewrite vresize_fixed].
Section Put.
  Variables (G : guile) (l b : bytes) (v11 : bool).
  Hypothesis H : l = [] /\ b = [] \/ l <> [] /\ glift (to_bytes (g_ic G) l E_UTF_8 E_UTF_8 false NoFail) = GOk b.
  Lemma put_title al ar co g xg st en sp trk yr :
    v1_put G SetTitle l (mkV1 false v11 al ar co g xg st en sp (repeatN 0 30) trk yr) = GOk (mkV1 false v11 al ar co g xg st en sp (fixed 30 b) trk yr).
  Proof. destruct (put_any G SetTitle l b (mkV1 false v11 al ar co g xg st en sp (repeatN 0 30) trk yr) H) as [[-> ->]| ->]; [now rewrite fixed_nil|cbn [v1_apply]; now rewrite vresize_fixed]. Qed.
  Lemma put_artist al co g xg st en sp ti trk yr :
    v1_put G SetArtist l (mkV1 false v11 al (repeatN 0 30) co g xg st en sp ti trk yr) = GOk (mkV1 false v11 al (fixed 30 b) co g xg st en sp ti trk yr).
  Proof. destruct (put_any G SetArtist l b (mkV1 false v11 al (repeatN 0 30) co g xg st en sp ti trk yr) H) as [[-> ->]| ->]; [now rewrite fixed_nil|cbn [v1_apply]; now rewrite vresize_fixed]. Qed.
  Lemma put_album ar co g xg st en sp ti trk yr :
    v1_put G SetAlbum l (mkV1 false v11 (repeatN 0 30) ar co g xg st en sp ti trk yr) = GOk (mkV1 false v11 (fixed 30 b) ar co g xg st en sp ti trk yr).
  Proof. destruct (put_any G SetAlbum l b (mkV1 false v11 (repeatN 0 30) ar co g xg st en sp ti trk yr) H) as [[-> ->]| ->]; [now rewrite fixed_nil|cbn [v1_apply]; now rewrite vresize_fixed]. Qed.
  Lemma put_comment al ar g xg st en sp ti trk yr : exists n,
    v1_put G SetComment l (mkV1 false v11 al ar (repeatN 0 (if v11 then 28 else 30)) g xg st en sp ti trk yr) = GOk (mkV1 false v11 al ar (fixed n b) g xg st en sp ti trk yr) /\
    (if v11 then 28 else 30) <= n.
  Proof.
    destruct (put_any G SetComment l b (mkV1 false v11 al ar (repeatN 0 (if v11 then 28 else 30)) g xg st en sp ti trk yr) H) as [[-> ->]| ->].
    - exists (if v11 then 28 else 30). now rewrite fixed_nil.
    - exists 30. cbn [v1_apply]. rewrite vresize_fixed. split; [reflexivity|]. destruct v11; lia.
  Qed.
End Put.
Lemma put_year G x b v11 al ar co g xg st en sp ti trk : v1_year G x b ->
  exists l, (if is_null x then GOk [] else to_cstring G x) = GOk l /\
  v1_fixed 4 SetYear l (mkV1 false v11 al ar co g xg st en sp ti trk (repeatN 0 4)) = GOk (mkV1 false v11 al ar co g xg st en sp ti trk (fixed 4 b)).
Proof.
  intros [[HX ->]|(s & -> & H1 & H2 & H3 & H4)].
  - exists []. rewrite fixed_nil. split; [destruct HX as [-> | ->]; reflexivity|reflexivity].
  - exists b. split.
    { cbn [is_null]. unfold to_cstring, to_locale. rewrite (to_utf8_ok s H1). cbn [gbind]. rewrite H2. cbn [gbind]. now rewrite (c_str_id b H3). }
    destruct H4 as [->|H4]; [now rewrite fixed_nil|]. unfold v1_fixed. destruct b as [|c b]; [discriminate H4|]. rewrite H4. change (4 =? 4) with true. cbv iota.
    cbn [v1_apply]. rewrite vresize_fixed, cstr_until. do 2 f_equal. f_equal. clear - H3.
    induction (c :: b) as [|x r IH]; [reflexivity|]. cbn [until_nul]. destruct (N.eqb_spec x 0) as [->|Hx]; [destruct H3; now left|].
    f_equal. apply IH. intros X. apply H3. now right.
Qed.

(** What is made of the object. *)
Definition made_v1 (bti bar bal bco byr : bytes) (g trk n : N) : id3v1_tag :=
  mkV1 false (negb (trk =? 0)) (fixed 30 bal) (fixed 30 bar) (fixed n bco) g [] (Some (repeatN 0 6)) (Some (repeatN 0 6)) None (fixed 30 bti)
       (if trk =? 0 then None else Some trk) (fixed 4 byr).
Lemma scratch_std v11 : v1_scratch v11 false = mkV1 false v11 (repeatN 0 30) (repeatN 0 30) (repeatN 0 (if v11 then 28 else 30)) 0 []
  (Some (repeatN 0 6)) (Some (repeatN 0 6)) None (repeatN 0 30) None (repeatN 0 4).
Proof. reflexivity. Qed.
Lemma made_ok G ti ar al co bti bar bal bco yr byr (g trk : N) xtrk speed :
    v1_stored G ti bti -> v1_stored G ar bar -> v1_stored G al bal -> v1_stored G co bco -> v1_year G yr byr ->
    g < 256 -> v1_track_slot xtrk trk -> nothing speed -> g_to_locale G [] = Some [] ->
  exists n, (if trk =? 0 then 30 else 28) <= n /\
  to_v1 G (SObj CV1 [SStr ti; SStr ar; SStr al; yr; SStr co; SInt (Z.of_N g); xtrk; SStr []; speed; SStr []; SStr []]) = GOk (made_v1 bti bar bal bco byr g trk n).
Proof.
  intros Hti Har Hal Hco Hyr Hg Htr Hsp HE.
  destruct (stored_given _ _ _ Hti) as (lti & T1 & T2 & _). destruct (stored_given _ _ _ Har) as (lar & A1 & A2 & _).
  destruct (stored_given _ _ _ Hal) as (lal & L1 & L2 & _). destruct (stored_given _ _ _ Hco) as (lco & C1 & C2 & _).
  assert (E0 : to_cstring G (SStr []) = GOk []) by (unfold to_cstring, to_locale; cbn; now rewrite HE).
  assert (EG : to_uchar (SInt (Z.of_N g)) = GOk g) by (unfold to_uchar; rewrite (int_in (Z.of_N g) 256) by lia; now rewrite N2Z.id).
  assert (ET : (if is_null xtrk then GOk 0 else to_uchar xtrk) = GOk trk).
  { destruct Htr as [[[-> | ->] ->]|[-> Ht]]; try reflexivity. cbn [is_null]. unfold to_uchar. rewrite (int_in (Z.of_N trk) 256) by lia. now rewrite N2Z.id. }
  assert (ES : (if is_null speed then GOk 0 else to_uchar speed) = GOk 0) by (destruct Hsp as [->|[->| ->]]; reflexivity).
  set (v11 := negb (trk =? 0)).
  destruct (put_comment G lco bco v11 C2 (fixed 30 bal) (fixed 30 bar) 0 [] (Some (repeatN 0 6)) (Some (repeatN 0 6)) None (fixed 30 bti) None (fixed 4 byr)) as (n & P1 & P2).
  destruct (put_year G yr byr v11 (fixed 30 bal) (fixed 30 bar) (repeatN 0 (if v11 then 28 else 30)) 0 [] (Some (repeatN 0 6)) (Some (repeatN 0 6)) None (fixed 30 bti) None Hyr) as (lyr & Y1 & Y2).
  exists n. split; [subst v11; destruct (trk =? 0); exact P2|].
  unfold to_v1. unfold slot. cbn [nth_error gbind]. rewrite T1. cbn [gbind]. rewrite A1. cbn [gbind]. rewrite L1. cbn [gbind]. rewrite Y1. cbn [gbind]. rewrite C1. cbn [gbind].
  rewrite EG. cbn [gbind]. rewrite ET. cbn [gbind]. rewrite E0. cbn [gbind]. rewrite ES. cbn [gbind].
  change (negb (len (@nil N) =? 0) || negb (0 =? 0) || negb (len (@nil N) =? 0) || negb (len (@nil N) =? 0)) with false. cbv iota zeta. fold v11.
  rewrite scratch_std. rewrite (put_title G lti bti v11 T2). cbn [gbind]. rewrite (put_artist G lar bar v11 A2). cbn [gbind]. rewrite (put_album G lal bal v11 L2). cbn [gbind].
  rewrite Y2. cbn [gbind]. rewrite P1. cbn [gbind]. unfold made_v1. subst v11. destruct (trk =? 0); reflexivity.
Qed.

Definition settled_v1 (bti bar bal bco byr : bytes) (g trk : N) : id3v1_tag := made_v1 bti bar bal bco byr g trk (if trk =? 0 then 30 else 28).
Lemma settled_write bti bar bal bco byr g trk n : (if trk =? 0 then 30 else 28) <= n ->
  v1_write (made_v1 bti bar bal bco byr g trk n) = v1_write (settled_v1 bti bar bal bco byr g trk).
Proof.
  intros Hn. unfold settled_v1, v1_write, made_v1. cbn [v_extended v_title v_artist v_album v_year v_v1_1 v_comment v_track v_genre].
  destruct (trk =? 0) eqn:E; cbn [negb].
  - rewrite !(write_at_ok (fixed _ bco)) by (rewrite fixed_len; lia). rewrite !slice_0. rewrite !fixed_cut by lia. reflexivity.
  - rewrite !(write_at_ok (fixed _ bco)) by (rewrite fixed_len; lia). rewrite !slice_0. rewrite !fixed_cut by lia. reflexivity.
Qed.
Lemma fixed_gap n b i j : no_nul b -> i < j -> nthN i (fixed n b) = 0 -> nthN j (fixed n b) = 0.
Proof.
  intros HB HIJ H. unfold fixed in *. set (t := takeN n b) in *.
  assert (HT : ~ In 0 t) by (intros X; apply HB; subst t; rewrite <- (takeN_dropN n b); apply in_or_app; now left).
  destruct (N.lt_ge_cases i (len t)) as [L|L].
  - exfalso. rewrite nthN_app_l in H by exact L. apply HT. rewrite <- H. unfold nthN. apply nth_In. unfold len in L. lia.
  - rewrite nthN_app_r by lia. unfold nthN, repeatN. destruct (nth_in_or_default (N.to_nat (j - len t)) (repeat 0 (N.to_nat (n - len b))) 0) as [X|X]; [|exact X].
    now apply repeat_spec in X.
Qed.
Lemma settled_wf bti bar bal bco byr g trk : no_nul bco -> wf_v1 (settled_v1 bti bar bal bco byr g trk).
Proof.
  intros HB. unfold settled_v1, made_v1. constructor; cbn [v_extended v_title v_artist v_album v_year v_v1_1 v_comment v_track v_genre v_speed]; rewrite ?fixed_len; try reflexivity.
  - now destruct (trk =? 0).
  - destruct (N.eqb_spec trk 0) as [->|H]; [discriminate|]. eauto.
  - intros E. destruct (trk =? 0); [|discriminate]. intros [H1 H2]. apply H2. apply (fixed_gap _ _ 28 29); [exact HB|lia|exact H1].
  - discriminate.
Qed.

Lemma settled_shown G bti bar bal bco byr g trk ti ar al co yr t :
  v1_latin G 30 bti ti -> v1_latin G 30 bar ar -> v1_latin G 30 bal al -> v1_latin G (if trk =? 0 then 30 else 28) bco co -> v1_text G E_ASCII NoFail 4 byr yr ->
  same_tag (settled_v1 bti bar bal bco byr g trk) t ->
  from_v1 G t = GOk (SObj CV1 [SStr ti; SStr ar; SStr al; SStr yr; SStr co; SInt (Z.of_N g); if trk =? 0 then SNull else SInt (Z.of_N trk); SStr []; SNull; SStr []; SStr []]).
Proof.
  intros H1 H2 H3 H4 H5 [S1 S2 S3 S4 S5 S6 S7 S8 S9 _]. unfold settled_v1, made_v1 in *.
  cbn [v_extended v_title v_artist v_album v_year v_v1_1 v_comment v_track v_genre] in *.
  unfold from_v1, latin_text, ascii_text. rewrite <- S3, <- S4, <- S5, <- S6, <- S7, <- S1, <- S2.
  rewrite (shown_text G E_ISO_8859_1 NoTranslit 30 bti ti ltac:(lia) H1). cbn [gbind]. rewrite (shown_text G E_ISO_8859_1 NoTranslit 30 bar ar ltac:(lia) H2). cbn [gbind]. rewrite (shown_text G E_ISO_8859_1 NoTranslit 30 bal al ltac:(lia) H3). cbn [gbind].
  rewrite (shown_text G E_ASCII NoFail 4 byr yr ltac:(lia) H5). cbn [gbind]. rewrite (shown_text G E_ISO_8859_1 NoTranslit (if trk =? 0 then 30 else 28) bco co ltac:(destruct (trk =? 0); lia) H4). cbn [gbind].
  rewrite <- S8. destruct (trk =? 0); cbn [negb]; [reflexivity|]. rewrite <- (S9 eq_refl). reflexivity.
Qed.

Lemma replace_v1_new k t fs st u fs' : find_node k fs = None -> replace_v1_file k t fs = (st, (Ok u, fs')) ->
  exists f, replace_id3v1 [] t = Ok f /\ find_node k fs' = Some (File f).
Proof.
  intros Hk H. unfold replace_v1_file in H. rewrite Hk in H. apply fbind_ok in H as (a & st1 & fs1 & st2 & H1 & H2).
  unfold change in H1. injection H1 as <- <- <-. apply fbind_ok in H2 as (b & st3 & fs2 & st4 & H3 & H4).
  unfold flift in H3. destruct (v1_write t) as [w| | |] eqn:E; try discriminate H3. injection H3 as <- <- <-.
  unfold append in H4. rewrite find_set_same in H4. injection H4 as _ _ <-. exists w. split; [|apply find_set_same].
  unfold replace_id3v1. change (maybe_remove_id3v1 []) with (@Ok bytes []). cbn [bind]. rewrite E. reflexivity.
Qed.

Lemma v1_read_back G cwd x y pth q fs st r fs' : let k := resolve cwd q in
  v1_back G x y -> to_locale G pth = GOk q -> write_v1_scm G cwd x pth fs = (st, (GOk r, fs')) ->
  exists base blk, find_node k fs' = Some (File (base ++ blk)) /\ len blk = 128 /\
    maybe_remove_id3v1 (match find_node k fs with Some (File d) => d | _ => [] end) = Ok base /\
    (~ ends_in_block (base ++ blk) 355 (B "TAG+") -> read_v1_scm G cwd fs' pth = GOk y).
Proof.
  intros k HB Hq H. destruct HB as [ti ar al co bti bar bal bco ti' ar' al' co' yr byr yr' g trk xtrk speed K1 K2 K3 K4 K5 K6 K7 K8 K9 L1 L2 L3 L4 L5].
  destruct (made_ok G ti ar al co bti bar bal bco yr byr g trk xtrk speed K1 K2 K3 K4 K5 K6 K7 K8 K9) as (n & Hn & HT).
  assert (HNb : no_nul bco) by (destruct (stored_given _ _ _ K4) as (? & _ & _ & X); exact X).
  unfold write_v1_scm in H. rewrite HT in H. cbn [gbind] in H. rewrite Hq in H. cbn [gbind gfs_run fst snd] in H.
  destruct (replace_v1_file (resolve cwd q) (made_v1 bti bar bal bco byr g trk n) fs) as [st0 [[[]|e|w|] fs0]] eqn:R; try discriminate H. injection H as <- _ <-. fold k in R.
  assert (X : exists f, replace_id3v1 (match find_node k fs with Some (File d) => d | _ => [] end) (made_v1 bti bar bal bco byr g trk n) = Ok f /\ find_node k fs0 = Some (File f)).
  { destruct (find_node k fs) as [[d|]|] eqn:E.
    - destruct (replace_v1_ok _ _ _ _ _ _ E R) as (f & F1 & F2 & _). eauto.
    - unfold replace_v1_file in R. rewrite E in R. discriminate R.
    - eapply replace_v1_new; eauto. }
  destruct X as (f & F1 & F2). set (d := match find_node k fs with Some (File d) => d | _ => [] end) in *.
  assert (F1' : replace_id3v1 d (settled_v1 bti bar bal bco byr g trk) = Ok f).
  { unfold replace_id3v1 in *. now rewrite <- (settled_write _ _ _ _ _ _ _ n Hn). }
  pose proof (settled_wf bti bar bal bco byr g trk HNb) as W.
  assert (Y : exists base b, maybe_remove_id3v1 d = Ok base /\ v1_write (settled_v1 bti bar bal bco byr g trk) = Ok b /\ f = base ++ b /\ len b = 128).
  { unfold replace_id3v1 in F1'. destruct (maybe_remove_id3v1 d) as [base| | |]; try discriminate F1'. cbn [bind] in F1'.
    destruct (write_writable _ (wf_writable _ W)) as (b & B1 & B2). rewrite B1 in F1'. cbn [bind] in F1'. apply Ok_inj in F1'. subst f.
    exists base, b. repeat split; auto. }
  destruct Y as (base & b & Y1 & Y2 & -> & Y4). exists base, b. split; [exact F2|]. split; [exact Y4|]. split; [exact Y1|].
  intros HE. destruct (replace_read _ _ _ W F1' (fun _ => HE)) as (base' & b' & _ & _ & _ & _ & t' & T1 & T2).
  assert (T3 : fst (process_id3v1 (open_file (base ++ b) goodbit)) = Ok (Some t')).
  { apply (v1_read_fun (base ++ b)); [apply process_read|]. rewrite <- T1. apply process_read. }
  unfold read_v1_scm. rewrite Hq. cbn [gbind]. unfold file_data. fold k. rewrite F2, T3. cbn [glift gbind].
  rewrite (settled_shown G bti bar bal bco byr g trk ti' ar' al' co' yr' t'); auto.
Qed.

(** ** ASCII *)
Lemma plain_facts n s : plain_text n s -> no_nul s /\ ascii s /\ no_trailing s /\ fixed n s = s ++ repeatN 0 (n - len s).
Proof.
  intros (H1 & H2 & H3). split; [|split; [|split; [exact H2|]]].
  - intros X. rewrite Forall_forall in H1. specialize (H1 _ X). lia.
  - eapply Forall_impl; [|exact H1]. cbn. lia.
  - unfold fixed. now rewrite takeN_all.
Qed.
Lemma ascii_no_bom s : ascii s -> no_bom s.
Proof.
  intros H r. assert (K : forall x, In x s -> x < 128) by (now apply Forall_forall).
  repeat split; intros ->.
  - specialize (K 239 (or_introl eq_refl)). lia.
  - specialize (K 254 (or_introl eq_refl)). lia.
  - specialize (K 255 (or_introl eq_refl)). lia.
  - assert (X : 254 < 128) by (apply K; right; right; now left). lia.
Qed.
Lemma zeros_ascii n : ascii (repeatN 0 n).
Proof. apply Forall_forall. intros x Hx. unfold repeatN in Hx. apply repeat_spec in Hx. subst. lia. Qed.
Lemma plain_stored G n s : ascii_kept G -> plain_text n s -> v1_stored G s s.
Proof.
  intros HG HP. destruct (plain_facts _ _ HP) as (P1 & P2 & _). destruct (HG s P2) as (G1 & _ & G2).
  split; [exact P1|]. exists s. split; [now apply G1|]. split; [exact P1|]. destruct s as [|c s]; [left; auto|right].
  split; [discriminate|]. split; [apply G2; auto|]. split; [lia|exact P1].
Qed.
Lemma plain_shown G n s e r : ascii_kept G -> plain_text n s -> e = E_ISO_8859_1 \/ e = E_ASCII -> v1_text G e r n s s.
Proof.
  intros HG HP He. destruct (plain_facts _ _ HP) as (P1 & P2 & P3 & P4).
  assert (HA : ascii (s ++ repeatN 0 (n - len s))) by (apply Forall_app; split; [exact P2|apply zeros_ascii]).
  exists (s ++ repeatN 0 (n - len s)). rewrite P4. destruct (HG _ HA) as (_ & _ & G2). destruct (HG s P2) as (_ & G3 & _).
  split; [apply G2; tauto|]. split; [now apply ascii_no_bom|]. split; [|exact G3].
  exists (repeatN 0 (n - len s)). split; [reflexivity|]. split; [|exact P3]. apply Forall_forall. intros x Hx. unfold repeatN in Hx. apply repeat_spec in Hx. now left.
Qed.
Lemma plain_v1_back G ti ar al yr co (g trk : N) : ascii_kept G -> plain_text 30 ti -> plain_text 30 ar -> plain_text 30 al -> plain_text 4 yr -> (yr = [] \/ len yr = 4) ->
  plain_text (if trk =? 0 then 30 else 28) co -> g < 256 -> trk < 256 ->
  let x := SObj CV1 [SStr ti; SStr ar; SStr al; SStr yr; SStr co; SInt (Z.of_N g); if trk =? 0 then SNull else SInt (Z.of_N trk); SStr []; SNull; SStr []; SStr []] in
  v1_back G x x.
Proof.
  intros HG H1 H2 H3 H4 H5 H6 H7 H8 x. subst x.
  apply (v1_back_std G ti ar al co ti ar al co ti ar al co (SStr yr) yr yr g trk (if trk =? 0 then SNull else SInt (Z.of_N trk)) SNull);
    try (eapply plain_stored; eassumption); try (apply plain_shown; auto; fail); auto.
  - right. exists yr. destruct (plain_facts _ _ H4) as (P1 & P2 & _). destruct (HG yr P2) as (G1 & _). repeat split; auto.
  - destruct (N.eqb_spec trk 0) as [->|E]; [left; auto|right; auto].
  - now left.
  - destruct (HG [] (Forall_nil _)) as (G1 & _). apply G1. intros [].
Qed.

(** ** Not ASCII *)
Lemma latin_app a b : latin_utf8 (a ++ b) = latin_utf8 a ++ latin_utf8 b.
Proof. unfold latin_utf8. now rewrite map_app, concat_app. Qed.
Lemma latin_zeros n : latin_utf8 (repeatN 0 n) = repeatN 0 n.
Proof. unfold repeatN, latin_utf8. induction (N.to_nat n) as [|k IH]; [reflexivity|]. cbn [repeat map concat]. now rewrite IH. Qed.
Lemma latin_len s : len s <= len (latin_utf8 s).
Proof.
  induction s as [|c s IH]; [reflexivity|]. unfold latin_utf8 in *. cbn [map concat]. rewrite len_app, len_cons. destruct (c <? 128); cbn [len]; rewrite ?len_cons; change (len (@nil N)) with 0; lia.
Qed.
Lemma latin_longer s : ~ ascii s -> len s < len (latin_utf8 s).
Proof.
  induction s as [|c s IH]; [intros H; destruct H; constructor|]. intros H. change (latin_utf8 (c :: s)) with ((if c <? 128 then [c] else [192 + c / 64; 128 + c mod 64]) ++ latin_utf8 s).
  rewrite len_app, len_cons. destruct (N.ltb_spec c 128) as [L|L].
  - rewrite len_cons. change (len (@nil N)) with 0. assert (X : ~ ascii s) by (intros A; apply H; constructor; [lia|exact A]). specialize (IH X). lia.
  - rewrite !len_cons. change (len (@nil N)) with 0. pose proof (latin_len s). lia.
Qed.
Lemma latin_last s : s <> [] -> no_trailing s -> exists w x, latin_utf8 s = w ++ [x] /\ x <> 0 /\ x <> 32.
Proof.
  intros Hs HT. destruct (exists_last Hs) as (s' & d & ->). destruct (HT s' d eq_refl) as [D1 D2]. rewrite latin_app.
  unfold latin_utf8 at 2. cbn [map concat]. rewrite app_nil_r. destruct (N.ltb_spec d 128).
  - exists (latin_utf8 s'), d. auto.
  - exists (latin_utf8 s' ++ [192 + d / 64]), (128 + d mod 64). rewrite <- app_assoc. split; [reflexivity|]. lia.
Qed.
Lemma twice_encoded G r n s b s' : (forall x, g_ic G E_ISO_8859_1 E_UTF_8 r x = Some (latin_utf8 x)) -> ~ ascii s -> no_trailing s -> len s <= n -> b = s ->
  v1_text G E_ISO_8859_1 r n b s' -> s' <> s.
Proof.
  intros HI HA HT HL -> (out & H1 & _ & (t & H2 & H3 & _) & _) E. subst s'. rewrite HI in H1. injection H1 as <-.
  unfold fixed in H2. rewrite takeN_all in H2 by exact HL. rewrite latin_app, latin_zeros in H2.
  assert (Hs : s <> []) by (intros ->; apply HA; constructor).
  destruct (latin_last s Hs HT) as (w & x & W & X1 & X2).
  pose proof (latin_longer s HA) as LL. rewrite W, len_app in LL. change (len [x]) with 1 in LL.
  rewrite W, <- app_assoc in H2. cbn [app] in H2.
  assert (HX : In x t).
  { assert (Y : dropN (len s) (w ++ x :: repeatN 0 (n - len s)) = t) by (rewrite H2; now apply dropN_app_exact).
    rewrite <- Y. rewrite dropN_app_le by lia. apply in_or_app. right. now left. }
  rewrite Forall_forall in H3. destruct (H3 x HX); congruence.
Qed.

(** ** Enhanced tags *)
Lemma enhanced_slots G t x : v_extended t = true -> from_v1 G t = GOk x ->
  exists a0 a1 a2 a3 a4 g s sp st en, x = SObj CV1 [a0; a1; a2; a3; a4; SInt g; SStr s; SInt sp; st; en; SStr []].
Proof.
  intros HE H. unfold from_v1 in H. rewrite HE in H. binds H. injection H as <-.
  assert (X : exists s, a5 = SStr s).
  { unfold ascii_text in E5. binds E5. unfold from_stringn in E5. destruct (g_utf8 G _); [injection E5 as <-; eauto|]. destruct (g_escape G _); [injection E5 as <-; eauto|discriminate]. }
  destruct X as (s & ->). eauto 20.
Qed.
Lemma enhanced_stuck G t x t' : v_extended t = true -> from_v1 G t = GOk x -> to_v1 G x <> GOk t'.
Proof.
  intros HE H. destruct (enhanced_slots _ _ _ HE H) as (a0 & a1 & a2 & a3 & a4 & g & s & sp & st & en & ->). intros K. unfold to_v1 in K.
  unfold slot in K. cbn [nth_error gbind] in K. binds K.
Qed.

Lemma v1_kept G cwd x y pth q fs st r fs' : let k := resolve cwd q in
  v1_back G x y -> to_locale G pth = GOk q -> write_v1_scm G cwd x pth fs = (st, (GOk r, fs')) ->
  exists base blk, find_node k fs' = Some (File (base ++ blk)) /\ len blk = 128 /\
    without_v1 (match find_node k fs with Some (File d) => d | _ => [] end) base /\
    (~ ends_in_block (base ++ blk) 355 (B "TAG+") -> read_v1_scm G cwd fs' pth = GOk y).
Proof.
  intros k H1 H2 H3. destruct (v1_read_back G cwd x y pth q fs st r fs' H1 H2 H3) as (base & blk & K1 & K2 & K3 & K4).
  exists base, blk. split; [exact K1|]. split; [exact K2|]. split; [exact (remove_spec _ _ K3)|exact K4].
Qed.
Lemma title_encoded_twice G ti rest y : (forall s, g_to_locale G s = Some s) -> (forall r s, g_ic G E_UTF_8 E_UTF_8 r s = Some s) ->
  (forall r s, g_ic G E_ISO_8859_1 E_UTF_8 r s = Some (latin_utf8 s)) -> ~ ascii ti -> no_trailing ti -> len ti <= 30 ->
  v1_back G (SObj CV1 (SStr ti :: rest)) y -> exists ti' rest', y = SObj CV1 (SStr ti' :: rest') /\ ti' <> ti.
Proof.
  intros H1 H2 H3 HA HT HL HB. inversion HB as [ti0 ar al co bti bar bal bco ti' ar' al' co' yr byr yr' g trk xtrk speed K1 K2 K3 K4 K5 K6 K7 K8 K9 L1 L2 L3 L4 L5]; subst.
  eexists _, _. split; [reflexivity|]. eapply twice_encoded; try eassumption; [intros; apply H3|].
  destruct K1 as (_ & l & E1 & _ & E2). rewrite H1 in E1. injection E1 as <-. destruct E2 as [[-> ->]|(_ & E2 & _)]; [reflexivity|]. rewrite H2 in E2. now injection E2.
Qed.
