(** * Lemmas for C79: identifiers; what is not written, or not read back. *)
From Verif Require Import Base M_Ints M_Stream M_Charset M_Payload M_Cloud M_Frame M_Tag22 M_Tag23 M_Tag24 M_Lookup M_Read M_Fs M_Tagset M_Cmds M_Lang M_Scheme M_Scheme2
  S_Ints S_Charset S_Payload S_Cloud S_Lang S_Tag S_Scheme2 L_Payload L_Scheme2 L_Scheme3 L_Scheme4.
#[local] Open Scope N_scope.

(** ** Identifiers *)
Definition sym_class (sym : bytes) : cls :=
  if bytes_eqb sym (B "comment-frame") then CComment else if bytes_eqb sym (B "udt-frame") then CUdt else if bytes_eqb sym (B "play-count-frame") then CCount
  else if bytes_eqb sym (B "popm-frame") then CPopm else CCloud.
Lemma special_cases v sym id : documented_id v sym id -> In sym special ->
  assoc_b sym (ser_table v) = Some (match sym_class sym with CComment => FComment | CUdt => FUdt | CCount => FCount | CPopm => FPopm | _ => FCloud end) /\
  id = match sym_class sym with CComment => comment_id v | CUdt => udt_id v | CCount => pcnt_id v | CPopm => pop_id v | _ => cloud_id v end.
Proof.
  intros H HI. apply doc_known in H as (D1 & _).
  destruct HI as [<-|[<-|[<-|[<-|[<-|[]]]]]]; destruct v; vm_compute in D1; injection D1 as <-; vm_compute; auto.
Qed.
Lemma unknown_slot6 G v slots f : ser_unknown G v slots = GOk f -> exists b, nth_error slots 6 = Some (SBytes b).
Proof.
  unfold ser_unknown. intros H. destruct (slot 5 slots); try discriminate H. cbn [gbind] in H. destruct (to_locale G a); try discriminate H. cbn [gbind] in H.
  destruct (len (c_str a0) + 1 <? id_size v); try discriminate H. cbn [gbind] in H.
  match type of H with gbind ?x _ = _ => destruct x; try discriminate H end. cbn [gbind] in H.
  unfold slot in H. destruct (nth_error slots 6) as [x|] eqn:E; try discriminate H. cbn [gbind] in H. destruct x; try discriminate H. eauto.
Qed.
Ltac binds H := repeat match type of H with
  | gbind ?x _ = GOk _ => let E := fresh "E" in destruct x eqn:E; try discriminate H; cbn [gbind] in H
  | (let '(_, _) := ?p in _) = GOk _ => destruct p
  end.
Lemma known_id G v k c sym rest f : ser_known G v k c (SSym sym :: rest) = GOk f ->
  match k with FText => id_of_symbol v sym = Some (f_id f) | FComment => f_id f = comment_id v | FUdt => f_id f = udt_id v | FCount => f_id f = pcnt_id v
  | FPopm => f_id f = pop_id v | FCloud => f_id f = cloud_id v end.
Proof.
  intros H. destruct k; cbn [ser_known] in H.
  - unfold ser_text in H. binds H. unfold ser_frame in E. destruct (negb (cls_eqb c CText)); try discriminate E. unfold slot at 1 in E. cbn [nth_error gbind] in E.
    unfold symbol_text in E. destruct (has_nul sym); try discriminate E. cbn [gbind] in E. binds E. injection E as <- <-.
    destruct (id_of_symbol v sym); try discriminate H. binds H. now injection H as <-.
  - unfold ser_comment in H. binds H. now injection H as <-.
  - unfold ser_udt in H. binds H. now injection H as <-.
  - unfold ser_count in H. binds H. now injection H as <-.
  - unfold ser_popm in H. binds H. now injection H as <-.
  - unfold ser_cloud in H. binds H. now injection H as <-.
Qed.
Lemma written_id G v c sym rest id f : documented_id v sym id -> (forall b, nth_error rest 5 <> Some (SBytes b)) ->
  ser G v (SObj c (SSym sym :: rest)) = GOk f -> f_id f = id.
Proof.
  intros HD HB H. destruct (doc_known _ _ _ HD) as (D1 & _ & _ & _ & D5).
  unfold ser in H. destruct (is_frame c); try discriminate H. unfold slot in H. cbn [nth_error gbind] in H. unfold symbol_text in H. rewrite D5 in H. cbn [gbind] in H.
  destruct (assoc_b sym (ser_table v)) as [k|] eqn:K.
  - assert (H' : ser_known G v k c (SSym sym :: rest) = GOk f).
    { destruct (ser_known G v k c (SSym sym :: rest)) eqn:E; cbn [gcatch] in H; try exact H. apply unknown_slot6 in H as (b & Hb). destruct (HB b Hb). }
    apply known_id in H'. destruct (in_dec (list_eq_dec N.eq_dec) sym special) as [HI|HI].
    + destruct (special_cases _ _ _ HD HI) as [X1 X2]. rewrite X1 in K. injection K as <-. destruct HI as [<-|[<-|[<-|[<-|[<-|[]]]]]]; rewrite X2; exact H'.
    + destruct (doc_text v sym id (conj HD HI)) as (X1 & _). rewrite X1 in K. injection K as <-. congruence.
  - exfalso. destruct (in_dec (list_eq_dec N.eq_dec) sym special) as [HI|HI].
    + destruct (special_cases _ _ _ HD HI) as [X1 _]. congruence.
    + destruct (doc_text v sym id (conj HD HI)) as (X1 & _). congruence.
Qed.

(** ** Objects that are not written *)
Lemma short_unknown G v sym a b c d s r : to_locale G (SStr s) = GOk r ->
  ser_unknown G v [SSym sym; a; b; c; d; SStr s] = GUB OutOfBounds.
Proof.
  intros H. unfold ser_unknown. unfold slot at 1. cbn [nth_error gbind]. rewrite H. cbn [gbind].
  destruct (len (c_str r) + 1 <? id_size v); [reflexivity|]. cbn [gbind].
  destruct v; reflexivity.
Qed.
Lemma latin1_l G v sym id a b c d s r : text_symbol v sym id -> no_nul s -> s <> [] ->
  g_ic G E_UTF_8 (text_encoding v) NoFail s = None -> g_to_locale G s = Some r ->
  ser G v (SObj CText [SSym sym; a; b; c; d; SStr s]) = GUB OutOfBounds.
Proof.
  intros HT HN Hs HC HL. destruct (doc_known _ _ _ (proj1 HT)) as (D1 & _ & _ & _ & D5). destruct (doc_text _ _ _ HT) as (D6 & _).
  assert (L : to_locale G (SStr s) = GOk r) by (unfold to_locale; rewrite (to_utf8_ok s HN); cbn [gbind]; now rewrite HL).
  unfold ser. cbn [is_frame]. unfold slot. cbn [nth_error gbind]. unfold symbol_text. rewrite D5. cbn [gbind]. rewrite D6.
  assert (E : ser_known G v FText CText [SSym sym; a; b; c; d; SStr s] = GThrow IconvError).
  { cbn [ser_known]. unfold ser_text, ser_frame. cbn [cls_eqb negb]. unfold slot. cbn [nth_error gbind]. unfold symbol_text. rewrite D5. cbn [gbind].
    assert (F : exists fl, ser_flags v [SSym sym; a; b; c; d; SStr s] = GOk fl) by (destruct v; eexists; reflexivity). destruct F as (fl & F). rewrite F. cbn [gbind].
    rewrite D1. rewrite (to_utf8_ok s HN). cbn [gbind].
    assert (T : to_bytes (g_ic G) s E_UTF_8 (text_encoding v) false NoFail = Throw IconvError).
    { unfold to_bytes. change (negb (char_unit E_UTF_8)) with false. cbv iota. rewrite (c_str_id s HN). destruct s; [congruence|]. now rewrite HC. }
    unfold text_new, text_set24. destruct v; cbn [encshim text_encoding] in *; rewrite T; reflexivity. }
  rewrite E. cbn [gcatch]. now apply short_unknown with r.
Qed.
Lemma misclassed_l G v sym id a b c d s r : text_symbol v sym id -> no_nul s -> g_to_locale G s = Some r -> forall cl, is_frame cl = true -> cl <> CText ->
  ser G v (SObj cl [SSym sym; a; b; c; d; SStr s]) = GUB OutOfBounds.
Proof.
  intros HT HN HL cl HF HC. destruct (doc_known _ _ _ (proj1 HT)) as (D1 & _ & _ & _ & D5). destruct (doc_text _ _ _ HT) as (D6 & _).
  assert (L : to_locale G (SStr s) = GOk r) by (unfold to_locale; rewrite (to_utf8_ok s HN); cbn [gbind]; now rewrite HL).
  unfold ser. rewrite HF. unfold slot. cbn [nth_error gbind]. unfold symbol_text. rewrite D5. cbn [gbind]. rewrite D6.
  assert (E : ser_known G v FText cl [SSym sym; a; b; c; d; SStr s] = GThrow LogicError).
  { cbn [ser_known]. unfold ser_text, ser_frame. destruct cl; try reflexivity; congruence. }
  rewrite E. cbn [gcatch]. now apply short_unknown with r.
Qed.
Lemma language_l G v a b c d l dsc s e r : no_nul l -> l <> [] -> read_language l = Throw e -> g_to_locale G l = Some r ->
  exists w, ser G v (SObj CComment [SSym (B "comment-frame"); a; b; c; d; SStr l; SStr dsc; SStr s]) = GUB w.
Proof.
  intros HN Hl HR HL.
  assert (L : to_locale G (SStr l) = GOk r) by (unfold to_locale; rewrite (to_utf8_ok l HN); cbn [gbind]; now rewrite HL).
  unfold ser. cbn [is_frame]. unfold slot. cbn [nth_error gbind]. unfold symbol_text. change (has_nul (B "comment-frame")) with false. cbn [gbind].
  assert (K : assoc_b (B "comment-frame") (ser_table v) = Some FComment) by (destruct v; reflexivity). rewrite K.
  assert (E : ser_known G v FComment CComment [SSym (B "comment-frame"); a; b; c; d; SStr l; SStr dsc; SStr s] = GThrow e).
  { cbn [ser_known]. unfold ser_comment, ser_frame. cbn [cls_eqb negb]. unfold slot. cbn [nth_error gbind]. unfold symbol_text. change (has_nul (B "comment-frame")) with false. cbn [gbind].
    assert (F : exists fl, ser_flags v [SSym (B "comment-frame"); a; b; c; d; SStr l; SStr dsc; SStr s] = GOk fl) by (destruct v; eexists; reflexivity). destruct F as (fl & F). rewrite F. cbn [gbind].
    rewrite (to_utf8_ok l HN). cbn [gbind]. destruct l; [congruence|]. rewrite HR. reflexivity. }
  rewrite E. cbn [gcatch]. unfold ser_unknown. unfold slot at 1. cbn [nth_error gbind]. rewrite L. cbn [gbind].
  destruct (len (c_str r) + 1 <? id_size v); [eexists; reflexivity|]. cbn [gbind]. destruct v; eexists; reflexivity.
Qed.
Lemma cloud_l G v a b c d own kv given : v <> V23 -> no_nul own ->
  ser G v (SObj CCloud [SSym (B "tag-cloud-frame"); a; b; c; d; SStr own; alist (kv :: given)]) = GUB NullDeref.
Proof.
  intros HV HN. unfold ser. cbn [is_frame]. unfold slot. cbn [nth_error gbind]. unfold symbol_text. change (has_nul (B "tag-cloud-frame")) with false. cbn [gbind].
  assert (K : assoc_b (B "tag-cloud-frame") (ser_table v) = Some FCloud) by (destruct v; reflexivity). rewrite K.
  cbn [ser_known]. unfold ser_cloud, ser_frame. cbn [cls_eqb negb]. unfold slot. cbn [nth_error gbind]. unfold symbol_text. change (has_nul (B "tag-cloud-frame")) with false. cbn [gbind].
  assert (F : exists fl, ser_flags v [SSym (B "tag-cloud-frame"); a; b; c; d; SStr own; alist (kv :: given)] = GOk fl) by (destruct v; eexists; reflexivity). destruct F as (fl & F). rewrite F. cbn [gbind].
  rewrite (to_utf8_ok own HN). cbn [gbind]. unfold alist. rewrite to_list_of. cbn [map gbind]. destruct v; try reflexivity. congruence.
Qed.

(** ** Objects that come back as others *)
Lemma frame_unknown G z v w f x : (exists e k, assoc_b (f_id f) (de_table v) = Some k /\ de_known G v k f = GThrow e) ->
  de G z v w (new_frame f) = GOk x -> exists idt b, x = SObj CUnk (SSym (B "unknown-frame") :: flag_slots v (f_flags f) ++ [SStr idt; SBytes b]).
Proof.
  intros (e & k & K & D) H. unfold de in H. cbn [new_frame c_frame] in H. rewrite K, D in H. cbn [gcatch] in H. unfold de_unknown in H. cbn [c_frame] in H.
  binds H. injection H as <-. unfold from_locale in E. destruct (g_from_locale G _); try discriminate E. injection E as <-. eexists _, _. reflexivity.
Qed.
Lemma udt24_l G a b c d dsc s : description_kept G V24 dsc -> unicode_kept G V24 s -> dsc <> [] \/ s <> [] ->
  exists f, ser G V24 (SObj CUdt [SSym (B "udt-frame"); a; b; c; d; SStr dsc; SStr s]) = GOk f /\ f_id f = B "TXXX" /\
    forall z w x, de G z V24 w (new_frame f) = GOk x ->
      exists idt bv, x = SObj CUnk (SSym (B "unknown-frame") :: flag_slots V24 (f_flags f) ++ [SStr idt; SBytes bv]).
Proof.
  intros (bd & HD & HT) (bt & HC) Hne.
  assert (F : exists fl, ser_flags V24 [SSym (B "udt-frame"); a; b; c; d; SStr dsc; SStr s] = GOk fl) by (eexists; reflexivity). destruct F as (fl & F).
  exists (mkFrame (udt_id V24) fl (BTxxx (mkTxxx 1 4 bd bt))). split; [|split; [reflexivity|]].
  - apply (ser_known_ok _ _ FUdt); [reflexivity|reflexivity|reflexivity|]. cbn [ser_known]. unfold ser_udt, ser_frame. cbn [cls_eqb negb]. unfold slot at 1. cbn [nth_error gbind].
    unfold symbol_text. change (has_nul (B "udt-frame")) with false. cbn [gbind]. rewrite F. cbn [gbind].
    unfold slot. cbn [nth_error gbind]. rewrite (given_conv _ _ _ _ _ HD). cbn [gbind]. rewrite (given_conv _ _ _ _ _ HC). cbn [gbind].
    rewrite (to_uni_conv _ _ _ _ _ HC), (to_uni_conv _ _ _ _ _ HD). reflexivity.
  - intros z w x. apply frame_unknown. exists RangeError, FUdt. split; [reflexivity|]. cbn [de_known f_body]. unfold de_udt. cbn [ud_unicode ud_desc ud_text].
    assert (T : forall q, q <> [] -> frame_text G V24 (Some 4) q = GThrow RangeError) by (intros [|y q] Hq; [congruence|reflexivity]).
    destruct HD as (G1 & N1 & [[-> ->]|(S1 & _ & _ & B1 & _)]).
    + destruct HC as (G2 & N2 & [[-> ->]|(S2 & _ & _ & B2 & _)]); [destruct Hne; congruence|].
      cbn [frame_text gbind]. unfold from_utf8. cbn [c_str]. rewrite G1. cbn [gbind]. now rewrite (T bt B2).
    + now rewrite (T bd B1).
Qed.
Lemma counter_too_long n : 2 ^ 32 <= n -> counter_value (reset_counter n) = Throw DomainError.
Proof.
  intros H. unfold reset_counter. replace (n =? 0) with false by (symmetry; apply N.eqb_neq; lia).
  assert (HL : 32 <= N.log2 n) by (apply N.log2_le_pow2; lia).
  assert (HQ : 4 <= N.log2 n / 8) by (apply N.div_le_lower_bound; lia).
  assert (L : (5 <= List.length (counter_digits (N.to_nat (N.log2 n / 8 + 1)) n))%nat) by (rewrite counter_digits_len; lia).
  destruct (counter_digits _ n) as [|x1 [|x2 [|x3 [|x4 [|x5 r]]]]]; cbn in L; try lia. reflexivity.
Qed.
Lemma count_l G v a b c d n : (2 ^ 32 <= n < 2 ^ 64)%Z ->
  exists f, ser G v (SObj CCount [SSym (B "play-count-frame"); a; b; c; d; SInt n]) = GOk f /\
    forall z w x, de G z v w (new_frame f) = GOk x ->
      exists idt bv, x = SObj CUnk (SSym (B "unknown-frame") :: flag_slots v (f_flags f) ++ [SStr idt; SBytes bv]).
Proof.
  intros Hn. assert (F : exists fl, ser_flags v [SSym (B "play-count-frame"); a; b; c; d; SInt n] = GOk fl) by (destruct v; eexists; reflexivity). destruct F as (fl & F).
  exists (mkFrame (pcnt_id v) fl (BCount (reset_counter (Z.to_N n)))). split.
  - apply (ser_known_ok _ _ FCount); [reflexivity|reflexivity|destruct v; reflexivity|]. cbn [ser_known]. unfold ser_count, ser_frame. cbn [cls_eqb negb]. unfold slot at 1. cbn [nth_error gbind].
    unfold symbol_text. change (has_nul (B "play-count-frame")) with false. cbn [gbind]. rewrite F. cbn [gbind].
    unfold slot. cbn [nth_error gbind]. unfold to_size_t. rewrite (int_in n (2 ^ 64)) by lia. reflexivity.
  - intros z w x. apply frame_unknown. exists DomainError, FCount. split; [destruct v; reflexivity|]. cbn [de_known f_body]. unfold de_count.
    rewrite counter_too_long; [reflexivity|]. change (2 ^ 32) with (Z.to_N (2 ^ 32)). apply Z2N.inj_le; lia.
Qed.
Lemma symbol_inv s t : symbol_text (SSym s) = GOk t -> t = s.
Proof. cbn [symbol_text]. destruct (has_nul s); congruence. Qed.
(** In ID3v2.4 an unknown frame is marked as unsynchronised if it is marked as read-only. *)
Lemma unknown_unsync_l G sym a b c d rest f : (forall i, ~ documented_id V24 sym i) -> ser G V24 (SObj CUnk (SSym sym :: a :: b :: c :: d :: rest)) = GOk f ->
  fl_unsync (f_flags f) = is_t c.
Proof.
  intros HS H. unfold ser in H. cbn [is_frame] in H. unfold slot in H. cbn [nth_error gbind] in H. binds H. rewrite (symbol_inv _ _ E), (undocumented _ _ HS) in H. clear E.
  unfold ser_unknown in H. unfold slot in H. cbn [nth_error] in H. binds H. match type of H with (if ?q then _ else _) = _ => destruct q; try discriminate H end. now injection H as <-.
Qed.
(** ** Tags of ID3v2.2 *)
Lemma usable_old ms t : In (Made22 t) ms -> usable ms = GUB Uninitialised.
Proof.
  induction ms as [|[t'|t'] r IH]; intros H; [destruct H| |reflexivity]. destruct H as [E|HI]; [discriminate E|].
  cbn [usable]. now rewrite (IH HI).
Qed.

Lemma old_l G z e tags xs ms t pth q unsync m copy fs : to_unsync unsync = GOk m -> to_list tags = GOk xs -> gmap (to_tag G) xs = GOk ms -> to_locale G pth = GOk q ->
  In (Made22 t) ms -> snd (write_tagset_scm G z e tags pth unsync copy fs) = (GUB Uninitialised, fs).
Proof.
  intros H1 H2 H3 H4 H5. unfold write_tagset_scm. rewrite H1. cbn [gbind]. rewrite H2. cbn [gbind]. rewrite H3. cbn [gbind]. rewrite H4. cbn [gbind].
  rewrite (usable_old _ _ H5). reflexivity.
Qed.
Lemma old_made G x t rest xs ms fs : gmap (to_tag G) xs = GOk ms -> In x xs -> x = SPair t (SPair (SInt 2) rest) -> to_tag G x = GOk fs -> exists y, In (Made22 y) ms.
Proof.
  intros H HI -> HT. revert ms H. induction xs as [|a r IH]; [destruct HI|]. intros ms H. cbn [gmap] in H. binds H. injection H as <-. destruct HI as [->|HI].
  - rewrite HT in E. injection E as ->. unfold to_tag in HT. cbn [list_ref gbind] in HT. destruct t; try discriminate HT. destruct c; try discriminate HT.
    change (to_int (SInt 2)) with (@GOk Z 2%Z) in HT. cbn [gbind] in HT. binds HT. change (2 =? 2)%Z with true in HT. cbv iota in HT. binds HT. injection HT as <-.
    eexists. left. reflexivity.
  - destruct (IH HI _ eq_refl) as (y & Hy). exists y. right. exact Hy.
Qed.
