(** * Lemmas for C79: objects of frames written and read back. *)
From Verif Require Import Base M_Ints M_Charset M_Payload M_Cloud M_Frame M_Tag22 M_Tag23 M_Tag24 M_Lookup M_Popm M_Lang M_Scheme
  S_Ints S_Charset S_Payload S_Cloud S_Lang S_Tag S_Scheme2 L_Ints L_Charset L_Cloud L_Payload L_Lang.
#[local] Open Scope N_scope.

(** ** Tables *)
Lemma bytes_eqb_true a b : bytes_eqb a b = true -> a = b.
Proof. apply bytes_eqb_eq. Qed.

Lemma assoc_in {A} k (t : list (bytes * A)) a : assoc_b k t = Some a -> In (k, a) t.
Proof.
  induction t as [|[k' a'] r IH]; cbn; [discriminate|]. destruct (bytes_eqb k k') eqn:E; [|auto].
  intros H. injection H as ->. apply bytes_eqb_true in E. subst. auto.
Qed.

Definition opt_eqb (a : option bytes) (b : bytes) : bool := match a with Some x => bytes_eqb x b | None => false end.
Definition ftext_b (a : option serde) : bool := match a with Some FText => true | _ => false end.
Definition ktext_b (a : kind) : bool := match a with KText => true | _ => false end.
Definition doc_ok (v : version) (sym id : bytes) : bool :=
  opt_eqb (id_of_symbol v sym) id && opt_eqb (symbol_of_id v id) sym && (len id =? id_width v) && negb (hd 0 id =? 0) && negb (has_nul sym)
  && (existsb (bytes_eqb sym) special ||
      ftext_b (assoc_b sym (ser_table v)) && ftext_b (assoc_b id (de_table v)) && ktext_b (kind_of v id)).
Definition row_ok (r : bytes * option bytes * bytes) : bool :=
  let '(sym, i3, i4) := r in
  match i3 with Some i => doc_ok V22 sym i | None => true end && doc_ok V23 sym i4 && doc_ok V24 sym i4.
Lemma rows_ok : forallb row_ok documented = true.
Proof. vm_compute. reflexivity. Qed.

Lemma doc_row v sym id : documented_id v sym id -> doc_ok v sym id = true.
Proof.
  intros (i3 & i4 & H & E). pose proof rows_ok as R. rewrite forallb_forall in R. specialize (R _ H). unfold row_ok in R.
  apply andb_true_iff in R as [R R4]. apply andb_true_iff in R as [R2 R3]. destruct v; subst; assumption.
Qed.
Lemma opt_eqb_true a b : opt_eqb a b = true -> a = Some b.
Proof. destruct a; [|discriminate]. cbn. intros H. apply bytes_eqb_true in H. now subst. Qed.
Lemma doc_known v sym id : documented_id v sym id ->
  id_of_symbol v sym = Some id /\ symbol_of_id v id = Some sym /\ len id = id_width v /\ hd 0 id <> 0 /\ has_nul sym = false.
Proof.
  intros H. apply doc_row in H. unfold doc_ok in H. repeat (apply andb_true_iff in H as [H ?]).
  repeat split; try (now apply opt_eqb_true); [now apply N.eqb_eq| |now apply negb_true_iff].
  intros K. rewrite K in *. discriminate.
Qed.
Lemma doc_text v sym id : text_symbol v sym id ->
  assoc_b sym (ser_table v) = Some FText /\ assoc_b id (de_table v) = Some FText /\ kind_of v id = KText.
Proof.
  intros [H HN]. apply doc_row in H. unfold doc_ok in H. apply andb_true_iff in H as [_ H]. apply orb_true_iff in H as [H|H].
  - exfalso. apply HN. apply existsb_exists in H as (x & Hx & E). apply bytes_eqb_true in E. now subst.
  - apply andb_true_iff in H as [H H3]. apply andb_true_iff in H as [H1 H2].
    destruct (assoc_b sym (ser_table v)) as [[]|]; try discriminate. destruct (assoc_b id (de_table v)) as [[]|]; try discriminate.
    destruct (kind_of v id); try discriminate. auto.
Qed.

Definition find_doc (v : version) (sym : bytes) : option bytes :=
  match v with
  | V22 => match find (fun r => bytes_eqb sym (fst (fst r)) && match snd (fst r) with Some _ => true | None => false end) documented with
           | Some r => snd (fst r) | None => None end
  | _ => match find (fun r => bytes_eqb sym (fst (fst r))) documented with Some r => Some (snd r) | None => None end
  end.
Lemma find_doc_ok v sym id : find_doc v sym = Some id -> documented_id v sym id.
Proof.
  unfold find_doc, documented_id. destruct v.
  - destruct (find _ _) as [[[s i3] i4]|] eqn:E; [|discriminate]. apply find_some in E as [E1 E2]. cbn in *. intros ->.
    apply andb_true_iff in E2 as [E2 _]. apply bytes_eqb_true in E2. subst. eauto.
  - destruct (find _ _) as [[[s i3] i4]|] eqn:E; [|discriminate]. apply find_some in E as [E1 E2]. cbn in *. intros H. injection H as ->.
    apply bytes_eqb_true in E2. subst. eauto.
  - destruct (find _ _) as [[[s i3] i4]|] eqn:E; [|discriminate]. apply find_some in E as [E1 E2]. cbn in *. intros H. injection H as ->.
    apply bytes_eqb_true in E2. subst. eauto.
Qed.
Lemma ser_doc v : forallb (fun r => match find_doc v (fst r) with Some _ => true | None => false end) (ser_table v) = true.
Proof. destruct v; vm_compute; reflexivity. Qed.
Lemma undocumented v sym : (forall i, ~ documented_id v sym i) -> assoc_b sym (ser_table v) = None.
Proof.
  intros H. destruct (assoc_b sym (ser_table v)) as [k|] eqn:E; [|reflexivity]. exfalso. apply assoc_in in E.
  pose proof (ser_doc v) as R. rewrite forallb_forall in R. specialize (R _ E). cbn [fst] in R.
  destruct (find_doc v sym) as [i|] eqn:F; [|discriminate]. exact (H i (find_doc_ok v sym i F)).
Qed.
Lemma de_kinds v : forallb (fun r => match kind_of v (fst r) with KUnknown => false | _ => true end) (de_table v) = true.
Proof. destruct v; vm_compute; reflexivity. Qed.
Lemma de_unknown_id v id : kind_of v id = KUnknown -> assoc_b id (de_table v) = None.
Proof.
  intros H. destruct (assoc_b id (de_table v)) as [k|] eqn:E; [|reflexivity]. apply assoc_in in E.
  pose proof (de_kinds v) as R. rewrite forallb_forall in R. specialize (R _ E). cbn [fst] in R. rewrite H in R. discriminate.
Qed.

(** ** Slots *)
Lemma is_f_not x : x <> SBool false -> is_f x = false.
Proof. destruct x as [| |[|]| | | | | | |]; cbn; congruence. Qed.
Lemma is_t_not x : x <> SBool true -> is_t x = false.
Proof. destruct x as [| |[|]| | | | | | |]; cbn; congruence. Qed.
Lemma flags_plain v s a b c d rest : unmarked v a b c d -> ser_flags v (s :: a :: b :: c :: d :: rest) = GOk no_flags.
Proof.
  unfold unmarked, ser_flags, slot. destruct v; cbn [nth_error gbind]; [reflexivity| |].
  - intros (A & C & D). now rewrite (is_f_not a), (is_f_not b), (is_t_not c).
  - intros (A & C & D & E). now rewrite (is_f_not a), (is_f_not b), (is_t_not c), (is_t_not d).
Qed.
Lemma marks_plain v c sym rest : init_frame v c sym no_flags rest = SObj c (SSym sym :: marks_read v ++ rest).
Proof. destruct v; reflexivity. Qed.
Lemma ser_frame_ok v c sym a b d e rest : has_nul sym = false -> unmarked v a b d e ->
  ser_frame v c c (SSym sym :: a :: b :: d :: e :: rest) = GOk (sym, no_flags).
Proof.
  intros Hs H. unfold ser_frame. replace (cls_eqb c c) with true by (destruct c; reflexivity). cbn [negb].
  unfold slot at 1. cbn [nth_error gbind]. unfold symbol_text. rewrite Hs. cbn [gbind]. now rewrite flags_plain.
Qed.

(** ** Text *)
Lemma no_nul_has s : no_nul s -> has_nul s = false.
Proof.
  intros H. unfold has_nul. apply not_true_iff_false. intros E. apply existsb_exists in E as (x & Hx & E).
  apply N.eqb_eq in E. subst. exact (H Hx).
Qed.
Lemma to_utf8_ok s : no_nul s -> to_utf8 (SStr s) = GOk s.
Proof. intros H. unfold to_utf8. now rewrite no_nul_has. Qed.
Lemma c_str_id s : no_nul s -> c_str s = s.
Proof. apply c_str_no_nul. Qed.
Lemma from_utf8_ok G s : no_nul s -> g_utf8 G s = true -> from_utf8 G s = GOk (SStr s).
Proof. intros H1 H2. unfold from_utf8. rewrite c_str_id by exact H1. now rewrite H2. Qed.

Lemma to_bytes_conv G there back s b : converts G there back s b -> to_bytes (g_ic G) s E_UTF_8 there false NoFail = Ok b.
Proof.
  intros (_ & HN & [[-> ->]|(H1 & H2 & H3 & H4 & H5 & H6 & H7)]); [reflexivity|].
  rewrite (to_bytes_short _ s _ _ _ _ b); auto.
Qed.
Lemma frame_text_conv G v u there back s b : converts G there back s b ->
  (b <> [] -> text_source v (mkText u b) = Ok back) -> frame_text G v (Some u) b = GOk s.
Proof.
  intros (_ & HN & [[-> ->]|(H1 & H2 & H3 & H4 & H5 & H6 & H7)]) HS; [reflexivity|].
  unfold frame_text. destruct b as [|x b]; [congruence|]. unfold text_as_str. cbn [tx_text]. rewrite HS by discriminate. cbn [bind].
  rewrite (to_string_l _ _ _ _ _ s); auto.
Qed.
Lemma shown_conv G there back s b : converts G there back s b -> from_utf8 G s = GOk (SStr s).
Proof. intros (H1 & H2 & _). now apply from_utf8_ok. Qed.
Lemma given_conv G there back s b : converts G there back s b -> to_utf8 (SStr s) = GOk s.
Proof. intros (_ & H2 & _). now apply to_utf8_ok. Qed.
Lemma uni_source v b : text_source v (mkText (match v with V24 => 3 | _ => 1 end) b) = Ok (unicode_read v b).
Proof. destruct v; reflexivity. Qed.
Lemma to_uni_conv G v s b back : converts G (unicode_encoding v) back s b -> to_uni G v s = GOk b.
Proof. intros H. unfold to_uni. change (uni_enc v) with (unicode_encoding v). now rewrite (to_bytes_conv _ _ _ _ _ H). Qed.
Lemma uni_text_conv G v s b : converts G (unicode_encoding v) (unicode_read v b) s b ->
  frame_text G v (Some (match v with V24 => 3 | _ => 1 end)) b = GOk s.
Proof. intros H. apply (frame_text_conv _ _ _ _ _ _ _ H). intros _. apply uni_source. Qed.

(** What is shown of an object that has been written: the frame is well-formed, has
    no flags and gives the object [y] again. *)
Definition writes_as (G : guile) (v : version) (u : bool) (x y : scm) : Prop :=
  exists f, ser G v x = GOk f /\ wf_frame v f /\ f_flags f = no_flags /\
    forall z (w : bool), (u = false -> w = false) -> de G z v w (new_frame f) = GOk y.

Lemma ser_known_ok G v k c sym rest : is_frame c = true -> has_nul sym = false -> assoc_b sym (ser_table v) = Some k ->
  forall f, ser_known G v k c (SSym sym :: rest) = GOk f -> ser G v (SObj c (SSym sym :: rest)) = GOk f.
Proof.
  intros Hc Hs Hk f H. unfold ser. rewrite Hc. unfold slot. cbn [nth_error gbind]. unfold symbol_text. rewrite Hs. cbn [gbind].
  rewrite Hk, H. reflexivity.
Qed.
Lemma de_known_ok G z v w k f x : assoc_b (f_id f) (de_table v) = Some k -> de_known G v k f = GOk x ->
  de G z v w (new_frame f) = GOk x.
Proof. intros H1 H2. unfold de. cbn [new_frame c_frame]. rewrite H1, H2. reflexivity. Qed.

Lemma text_back G v u sym id a b c d s : text_symbol v sym id -> unmarked v a b c d -> text_kept G v s ->
  writes_as G v u (SObj CText [SSym sym; a; b; c; d; SStr s]) (SObj CText (SSym sym :: marks_read v ++ [SStr s])).
Proof.
  intros HT HU (bt & HC). destruct (doc_known _ _ _ (proj1 HT)) as (D1 & D2 & D3 & D4 & D5).
  destruct (doc_text _ _ _ HT) as (D6 & D7 & D8).
  set (e := match v with V24 => 3 | _ => 0 end).
  assert (HN : text_new v (g_ic G) s E_UTF_8 false NoFail = Ok (mkText e bt)).
  { pose proof (to_bytes_conv _ _ _ _ _ HC) as H. unfold text_new, text_set24. destruct v; cbn [encshim]; cbn [text_encoding] in H; rewrite H; reflexivity. }
  exists (mkFrame id no_flags (BText (mkText e bt))). split; [|split; [|split; [reflexivity|]]].
  - apply (ser_known_ok _ _ FText); auto. cbn [ser_known]. unfold ser_text. rewrite ser_frame_ok by assumption. cbn [gbind].
    rewrite D1. unfold slot. cbn [nth_error gbind]. rewrite (given_conv _ _ _ _ _ HC). cbn [gbind]. rewrite HN. reflexivity.
  - unfold wf_frame. cbn [f_id f_body]. rewrite D8. repeat split; auto. discriminate.
  - intros z w _. apply (de_known_ok _ _ _ _ FText); [exact D7|]. cbn [de_known f_body]. unfold de_text. cbn [f_id f_flags tx_unicode tx_text]. rewrite D2.
    rewrite (frame_text_conv _ _ e _ _ _ _ HC).
    + cbn [gbind]. rewrite (shown_conv _ _ _ _ _ HC). cbn [gbind]. now rewrite marks_plain.
    + intros _. subst e. destruct v; reflexivity.
Qed.

Lemma language_known l l' : language_kept l l' -> no_nul l' /\ no_nul l /\ de_lang l' = l' /\ len l' = 3 /\
  exists x, match l with [] => GOk (Lang (B "eng")) | _ => glift (read_language l) end = GOk x /\ forall e, comment_language e x = Ok l'.
Proof.
  intros HK.
  assert (K : forall c, standard_code c -> no_nul (spelling c) /\ de_lang (spelling c) = spelling c /\ len (spelling c) = 3 /\
                exists x, read_language (spelling c) = Ok x /\ write_language x = Ok (spelling c)).
  { intros c Hc. unfold standard_code in Hc.
    assert (R : forallb (fun c => negb (has_nul (spelling c)) && bytes_eqb (de_lang (spelling c)) (spelling c) && (len (spelling c) =? 3) &&
                match read_language (spelling c) with Ok x => match write_language x with Ok s => bytes_eqb s (spelling c) | _ => false end | _ => false end)
              (map fst iso_639) = true) by (vm_compute; reflexivity).
    rewrite forallb_forall in R. specialize (R c Hc). apply andb_true_iff in R as [R R4]. apply andb_true_iff in R as [R R3].
    apply andb_true_iff in R as [R1 R2]. apply negb_true_iff in R1. apply bytes_eqb_true in R2. apply N.eqb_eq in R3.
    split; [|split; [exact R2|split; [exact R3|]]].
    - intros H. rewrite <- not_true_iff_false in R1. apply R1. apply existsb_exists. exists 0. split; [exact H|reflexivity].
    - destruct (read_language (spelling c)) as [x| | |]; try discriminate. exists x. split; [reflexivity|].
      destruct (write_language x) as [s| | |]; try discriminate. apply bytes_eqb_true in R4. now subst. }
  destruct HK as [[-> ->]|[-> (c & Hc & ->)]].
  - assert (HE : standard_code (B "eng")).
    { unfold standard_code. assert (Y : existsb (bytes_eqb (B "eng")) (map fst iso_639) = true) by (vm_compute; reflexivity).
      apply existsb_exists in Y as (c & Hc & Y). apply bytes_eqb_true in Y. now rewrite Y. }
    destruct (K (B "eng") HE) as (K1 & K2 & K3 & x & K4 & K5). change (spelling (B "eng")) with (B "eng") in *.
    split; [exact K1|]. split; [intros []|]. split; [exact K2|]. split; [exact K3|]. exists (Lang (B "eng")). split; [reflexivity|].
    intros e. apply (lang_code_l e (Lang (B "eng")) (B "eng") eq_refl).
  - destruct (K c Hc) as (K1 & K2 & K3 & x & K4 & K5). split; [exact K1|]. split; [exact K1|]. split; [exact K2|]. split; [exact K3|].
    exists x. split; [|intros e; apply (lang_code_l e x _ K5)]. destruct (spelling c) as [|y r]; [discriminate K3|]. now rewrite K4.
Qed.

Lemma comment_back G v u a b c d l l' dsc s : unmarked v a b c d -> language_kept l l' -> g_utf8 G l' = true ->
  description_kept G v dsc -> unicode_kept G v s ->
  writes_as G v u (SObj CComment [SSym (B "comment-frame"); a; b; c; d; SStr l; SStr dsc; SStr s])
                  (SObj CComment (SSym (B "comment-frame") :: marks_read v ++ [SStr l'; SStr dsc; SStr s])).
Proof.
  intros HU HL HG (bd & HD & HT) (bt & HC). destruct (language_known _ _ HL) as (L1 & L2 & L3 & L4 & x & L5 & L6).
  exists (mkFrame (comment_id v) no_flags (BComm (make_comm v l' uni_yes bt bd))). split; [|split; [|split; [reflexivity|]]].
  - apply (ser_known_ok _ _ FComment); [reflexivity|reflexivity|destruct v; reflexivity|]. cbn [ser_known]. unfold ser_comment.
    rewrite ser_frame_ok by (try reflexivity; assumption). cbn [gbind]. unfold slot. cbn [nth_error gbind].
    rewrite (to_utf8_ok l L2). cbn [gbind]. rewrite L5. cbn [gbind]. rewrite (given_conv _ _ _ _ _ HD). cbn [gbind].
    rewrite (given_conv _ _ _ _ _ HC). cbn [gbind]. rewrite L6. cbn [glift gbind]. rewrite (to_uni_conv _ _ _ _ _ HC), (to_uni_conv _ _ _ _ _ HD).
    reflexivity.
  - unfold wf_frame. cbn [f_id f_body]. repeat split.
    + destruct v; reflexivity.
    + destruct v; discriminate.
    + destruct v; reflexivity.
    + cbn [wf_body]. unfold wf_comm. destruct v; eexists _, l'; (split; [reflexivity|]); (split; [reflexivity|]); (split; [exact L4|]);
        (split; [cbn; lia|]); cbn [make_comm co_cbnil co_desc nul_width]; split.
      * right. split; [reflexivity|discriminate].
      * right. auto.
      * right. split; [reflexivity|discriminate].
      * right. auto.
      * left. auto.
      * left. auto.
    + destruct v; discriminate.
  - intros z w _. apply (de_known_ok _ _ _ _ FComment); [destruct v; reflexivity|]. cbn [de_known f_body]. unfold de_comment.
    assert (E : co_lang (make_comm v l' uni_yes bt bd) = Some l' /\ co_unicode (make_comm v l' uni_yes bt bd) = Some (match v with V24 => 3 | _ => 1 end) /\
                co_desc (make_comm v l' uni_yes bt bd) = bd /\ co_text (make_comm v l' uni_yes bt bd) = bt) by (destruct v; repeat split).
    destruct E as (-> & -> & -> & ->). rewrite L3, (from_utf8_ok G l' L1 HG). cbn [gbind]. rewrite (uni_text_conv _ _ _ _ HD). cbn [gbind].
    rewrite (shown_conv _ _ _ _ _ HD). cbn [gbind]. rewrite (uni_text_conv _ _ _ _ HC). cbn [gbind]. rewrite (shown_conv _ _ _ _ _ HC).
    cbn [gbind f_flags]. now rewrite marks_plain.
Qed.

Lemma udt_back G v u a b c d dsc s : v <> V24 -> unmarked v a b c d -> description_kept G v dsc -> unicode_kept G v s ->
  writes_as G v u (SObj CUdt [SSym (B "udt-frame"); a; b; c; d; SStr dsc; SStr s])
                  (SObj CUdt (SSym (B "udt-frame") :: marks_read v ++ [SStr dsc; SStr s])).
Proof.
  intros HV HU (bd & HD & HT) (bt & HC).
  exists (mkFrame (udt_id v) no_flags (BTxxx (mkTxxx 2 1 bd bt))).
  assert (EM : make_txxx v uni_yes bt bd = mkTxxx 2 1 bd bt) by (destruct v; try reflexivity; congruence).
  assert (E1 : (match v with V24 => 3 | _ => 1 end) = 1) by (destruct v; try reflexivity; congruence).
  split; [|split; [|split; [reflexivity|]]].
  - apply (ser_known_ok _ _ FUdt); [reflexivity|reflexivity|destruct v; reflexivity|]. cbn [ser_known]. unfold ser_udt.
    rewrite ser_frame_ok by (try reflexivity; assumption). cbn [gbind]. unfold slot. cbn [nth_error gbind].
    rewrite (given_conv _ _ _ _ _ HD). cbn [gbind]. rewrite (given_conv _ _ _ _ _ HC). cbn [gbind].
    rewrite (to_uni_conv _ _ _ _ _ HC), (to_uni_conv _ _ _ _ _ HD). cbn [gbind]. now rewrite EM.
  - unfold wf_frame. cbn [f_id f_body]. repeat split; try (destruct v; first [reflexivity|discriminate]).
    + cbn [ud_unicode ud_cbnil]. unfold nul_width. destruct v; try congruence; right; split; try reflexivity; discriminate.
    + cbn [ud_cbnil ud_desc]. right. split; [reflexivity|]. destruct v; try congruence; exact HT.
  - intros z w _. apply (de_known_ok _ _ _ _ FUdt); [destruct v; reflexivity|]. cbn [de_known f_body]. unfold de_udt. cbn [ud_unicode ud_desc ud_text].
    pose proof (uni_text_conv _ _ _ _ HD) as T1. pose proof (uni_text_conv _ _ _ _ HC) as T2. rewrite E1 in T1, T2.
    rewrite T1. cbn [gbind]. rewrite (shown_conv _ _ _ _ _ HD). cbn [gbind]. rewrite T2. cbn [gbind]. rewrite (shown_conv _ _ _ _ _ HC).
    cbn [gbind f_flags]. now rewrite marks_plain.
Qed.

Lemma int_in n (m : Z) : (0 <= n < m)%Z -> to_unsigned m (SInt n) = GOk (Z.to_N n).
Proof. intros H. unfold to_unsigned. replace ((0 <=? n) && (n <? m))%Z with true; [reflexivity|]. symmetry. apply andb_true_iff. lia. Qed.
Lemma size_in n : (0 <= n < 2 ^ 32)%Z -> to_size_t (SInt n) = GOk (Z.to_N n).
Proof. intros H. apply int_in. lia. Qed.
Lemma small_in n : (0 <= n < 2 ^ 32)%Z -> Z.to_N n < 2 ^ 32.
Proof. intros H. change (2 ^ 32) with (Z.to_N (2 ^ 32)). apply Z2N.inj_lt; lia. Qed.
Lemma counter_nonempty n : n < 2 ^ 32 -> reset_counter n <> [].
Proof. intros H E. pose proof (reset_counter_len n H) as L. rewrite E in L. cbn in L. lia. Qed.

Lemma count_back G v u a b c d n : unmarked v a b c d -> (0 <= n < 2 ^ 32)%Z ->
  writes_as G v u (SObj CCount [SSym (B "play-count-frame"); a; b; c; d; SInt n])
                  (SObj CCount (SSym (B "play-count-frame") :: marks_read v ++ [SInt n])).
Proof.
  intros HU Hn. exists (mkFrame (pcnt_id v) no_flags (BCount (reset_counter (Z.to_N n)))). split; [|split; [|split; [reflexivity|]]].
  - apply (ser_known_ok _ _ FCount); [reflexivity|reflexivity|destruct v; reflexivity|]. cbn [ser_known]. unfold ser_count.
    rewrite ser_frame_ok by (try reflexivity; assumption). cbn [gbind]. unfold slot. cbn [nth_error gbind]. rewrite (size_in n Hn). reflexivity.
  - unfold wf_frame. cbn [f_id f_body]. repeat split; try (destruct v; first [reflexivity|discriminate]).
    cbn [write_body]. intros E. apply Ok_inj in E. exact (counter_nonempty _ (small_in _ Hn) E).
  - intros z w _. apply (de_known_ok _ _ _ _ FCount); [destruct v; reflexivity|]. cbn [de_known f_body]. unfold de_count.
    rewrite counter_set_read by (apply small_in; exact Hn). cbn [glift gbind f_flags]. rewrite marks_plain, Z2N.id by lia. reflexivity.
Qed.

Lemma popm_back G v u a b c d own r n : unmarked v a b c d -> email_kept G own -> (0 <= r < 256)%Z -> (0 <= n < 2 ^ 32)%Z ->
  writes_as G v u (SObj CPopm [SSym (B "popm-frame"); a; b; c; d; SStr own; SInt r; SInt n])
                  (SObj CPopm (SSym (B "popm-frame") :: marks_read v ++ [SStr own; SInt r; SInt n])).
Proof.
  intros HU (E1 & E2 & E3) Hr Hn. exists (mkFrame (pop_id v) no_flags (BPopm (make_popm own (Z.to_N r) (Z.to_N n)))). split; [|split; [|split; [reflexivity|]]].
  - apply (ser_known_ok _ _ FPopm); [reflexivity|reflexivity|destruct v; reflexivity|]. cbn [ser_known]. unfold ser_popm.
    rewrite ser_frame_ok by (try reflexivity; assumption). cbn [gbind]. unfold slot. cbn [nth_error gbind]. rewrite (to_utf8_ok own E2). cbn [gbind].
    unfold to_uchar. rewrite (int_in r 256 Hr). cbn [gbind]. rewrite (size_in n Hn). reflexivity.
  - unfold wf_frame. cbn [f_id f_body]. repeat split; try (destruct v; first [reflexivity|discriminate]); try exact E2.
    cbn [write_body]. intros E. apply Ok_inj in E. unfold write_popm in E. destruct (po_email _); discriminate E.
  - intros z w _. apply (de_known_ok _ _ _ _ FPopm); [destruct v; reflexivity|]. cbn [de_known f_body]. unfold de_popm, email_text, make_popm.
    cbn [po_email po_rating po_counter].
    assert (ET : to_string (g_ic G) own E_ASCII E_UTF_8 NoFail = Ok own).
    { destruct own as [|x own]; [reflexivity|]. destruct E3 as [E3|(E3 & E4 & E5)]; [discriminate|]. apply to_string_l; auto. discriminate. }
    rewrite ET. cbn [glift gbind]. rewrite (from_utf8_ok G own E2 E1). cbn [gbind]. rewrite counter_set_read by (apply small_in; exact Hn).
    cbn [glift gbind f_flags]. rewrite marks_plain, !Z2N.id by lia. reflexivity.
Qed.

(** ** Clouds *)
Lemma to_list_of l : to_list (slist l) = GOk l.
Proof. induction l as [|x r IH]; [reflexivity|]. cbn [slist to_list]. rewrite IH. reflexivity. Qed.
Lemma is_list_of l : is_list (slist l) = true.
Proof. induction l as [|x r IH]; [reflexivity|]. exact IH. Qed.
Lemma gmap_utf8 vs : Forall no_nul vs -> gmap to_utf8 (map SStr vs) = GOk vs.
Proof.
  induction 1 as [|x r Hx _ IH]; [reflexivity|]. cbn [map gmap]. rewrite (to_utf8_ok x Hx). cbn [gbind]. rewrite IH. reflexivity.
Qed.
Definition as_set (vs : list bytes) : list bytes := fold_left (fun s v => sinsert v s) vs [].
Lemma ser_values_ok x : Forall no_nul (vals_list x) -> ser_values (vals_scm x) = GOk (as_set (vals_list x)).
Proof.
  destruct x as [v|vs]; cbn [vals_list vals_scm]; intros H.
  - apply Forall_inv in H. unfold ser_values. rewrite (to_utf8_ok v H). reflexivity.
  - assert (E : ser_values (slist (map SStr vs)) =
      if is_list (slist (map SStr vs)) then
        gbind (to_list (slist (map SStr vs))) (fun xs => gbind (gmap to_utf8 xs) (fun vs => GOk (as_set vs)))
      else GThrow RuntimeError) by (destruct vs; reflexivity).
    rewrite E, is_list_of, to_list_of. cbn [gbind]. rewrite gmap_utf8 by exact H. reflexivity.
Qed.
Definition entry_scm (kv : bytes * vals) : scm := SPair (SStr (fst kv)) (vals_scm (snd kv)).
Definition enter (m : cmap) (kv : bytes * vals) : cmap := mset (fst kv) (as_set (vals_list (snd kv))) m.
Lemma ser_entries_ok given : Forall (fun kv => no_nul (fst kv) /\ Forall no_nul (vals_list (snd kv))) given ->
  forall m, ser_entries (map entry_scm given) m = GOk (fold_left enter given m).
Proof.
  induction 1 as [|[k x] r [H1 H2] _ IH]; intros m; [reflexivity|]. cbn [map entry_scm fst snd ser_entries] in *.
  rewrite (to_utf8_ok k H1). cbn [gbind]. rewrite (ser_values_ok x H2). cbn [gbind]. apply IH.
Qed.
Lemma enter_all given : NoDup (map fst given) -> forall m, is_map m ->
  is_map (fold_left enter given m) /\
  (forall k, keyed (fold_left enter given m) k <-> In k (map fst given) \/ keyed m k) /\
  (forall k v, paired (fold_left enter given m) k v <->
     (exists x, In (k, x) given /\ In v (vals_list x)) \/ ~ In k (map fst given) /\ paired m k v).
Proof.
  induction given as [|[k0 x0] r IH]; intros HN m Hm.
  - cbn [fold_left map In]. split; [exact Hm|]. split; [tauto|]. intros k v. split; [tauto|]. intros [(x & [] & _)|[_ H]]. exact H.
  - cbn [map fst] in HN. apply NoDup_cons_iff in HN as [N1 N2]. cbn [fold_left].
    assert (Hm1 : is_map (enter m (k0, x0))) by (apply mset_map; [exact Hm|apply sinserts_set; constructor]).
    destruct (IH N2 _ Hm1) as (I1 & I2 & I3). split; [exact I1|].
    assert (EK : forall k, keyed (enter m (k0, x0)) k <-> k = k0 \/ keyed m k) by (intros k; apply mset_keyed, Hm).
    assert (EP : forall k v, paired (enter m (k0, x0)) k v <-> (k = k0 /\ In v (vals_list x0)) \/ (k <> k0 /\ paired m k v)).
    { intros k v. unfold enter. cbn [fst snd]. rewrite mset_paired by apply Hm. unfold as_set. rewrite sinserts_in. cbn [In]. tauto. }
    split.
    + intros k. rewrite I2, EK. cbn [map fst In]. split; intros [H|H]; auto; destruct H; auto.
    + intros k v. rewrite I3, EP. cbn [map fst In]. split.
      * intros [(x & H1 & H2)|(H1 & [[-> H2]|[H2 H3]])]; [left; exists x; auto|left; exists x0; auto|].
        right. split; [intros [H|H]; [congruence|auto]|exact H3].
      * intros [(x & [H1|H1] & H2)|(H1 & H2)].
        -- injection H1 as <- <-. right. split; [exact N1|]. left. auto.
        -- left. exists x. auto.
        -- right. split; [tauto|]. right. split; [intros ->; apply H1; left; reflexivity|exact H2].
Qed.
Lemma entered given m : cloud_read given m -> fold_left enter given [] = m.
Proof.
  intros (H1 & H2 & H3 & H4). assert (E0 : is_map []) by (split; constructor).
  destruct (enter_all given H1 [] E0) as (I1 & I2 & I3). apply L_Cloud.map_ext; auto.
  - intros k. rewrite I2, H3. split; [intros [H|(s & [])]; exact H|auto].
  - intros k v. rewrite I3, H4. split; [intros [H|(_ & s & [] & _)]; exact H|auto].
Qed.
Lemma stringn_ok G v : g_utf8 G v = true -> from_stringn G v = GOk (SStr v).
Proof. intros H. unfold from_stringn. now rewrite H. Qed.
Lemma gmap_stringn G vs : Forall (fun w => g_utf8 G w = true) vs -> gmap (from_stringn G) vs = GOk (map SStr vs).
Proof. induction 1 as [|x r Hx _ IH]; [reflexivity|]. cbn [map gmap]. rewrite (stringn_ok G x Hx). cbn [gbind]. rewrite IH. reflexivity. Qed.
Definition shown_entry (kv : bytes * list bytes) : scm := SPair (SStr (fst kv)) (slist (map SStr (snd kv))).
Lemma de_entries_ok G m : Forall (fun kv => g_utf8 G (fst kv) = true /\ Forall (fun w => g_utf8 G w = true) (snd kv)) m ->
  Forall (fun kv => no_nul (fst kv)) m ->
  forall l, de_entries G m (slist l) = GOk (slist (map shown_entry (rev m) ++ l)).
Proof.
  intros H. induction H as [|[k vs] r [H1 H2] _ IH]; intros HN l; [reflexivity|]. cbn [fst snd] in *.
  apply Forall_cons_iff in HN as [N1 N2]. cbn [fst] in N1. cbn [de_entries]. rewrite (gmap_stringn G vs H2). cbn [gbind].
  rewrite (from_utf8_ok G k N1 H1). cbn [gbind]. change (SPair (SPair (SStr k) (slist (map SStr vs))) (slist l)) with (slist (shown_entry (k, vs) :: l)).
  rewrite (IH N2). cbn [rev]. rewrite map_app, <- app_assoc. reflexivity.
Qed.

Lemma cloud_back G v u a b c d own given m : v = V23 \/ given = [] -> unmarked v a b c d -> g_utf8 G own = true -> no_nul own ->
  cloud_read given m -> plain_map m -> fits_map m ->
  Forall (fun kv => g_utf8 G (fst kv) = true /\ Forall (fun w => g_utf8 G w = true) (snd kv)) m ->
  writes_as G v u (SObj CCloud [SSym (B "tag-cloud-frame"); a; b; c; d; SStr own; alist given])
                  (SObj CCloud (SSym (B "tag-cloud-frame") :: marks_read v ++ [SStr own; cloud_scm m])).
Proof.
  intros HV HU HO HN HR HP HF HG.
  assert (HK : Forall (fun kv => no_nul (fst kv) /\ Forall no_nul (vals_list (snd kv))) given).
  { destruct HR as (_ & _ & R3 & R4). unfold plain_map in HP. rewrite Forall_forall in HP. apply Forall_forall. intros [k x] Hk. cbn [fst snd]. split.
    - destruct (proj2 (R3 k) (in_map fst _ _ Hk)) as (s & Hs). apply HP in Hs as [[_ Hs] _]. exact Hs.
    - apply Forall_forall. intros w Hw. destruct (proj2 (R4 k w)) as (s & Hs & Hi); [exists x; auto|].
      apply HP in Hs as [_ Hs]. rewrite Forall_forall in Hs. apply (Hs w Hi). }
  assert (HM : Forall (fun kv => no_nul (fst kv)) m).
  { eapply Forall_impl; [|exact HP]. intros kv [[_ H] _]. exact H. }
  exists (mkFrame (cloud_id v) no_flags (BCloud (mkCloud own m))). split; [|split; [|split; [reflexivity|]]].
  - apply (ser_known_ok _ _ FCloud); [reflexivity|reflexivity|destruct v; reflexivity|]. cbn [ser_known]. unfold ser_cloud.
    rewrite ser_frame_ok by (try reflexivity; assumption). cbn [gbind]. unfold slot. cbn [nth_error gbind]. rewrite (to_utf8_ok own HN). cbn [gbind].
    unfold alist. rewrite to_list_of. cbn [gbind]. change (fun kv : bytes * vals => SPair (SStr (fst kv)) (vals_scm (snd kv))) with entry_scm.
    assert (E : match v, map entry_scm given with _, [] => GOk [] | V23, _ => ser_entries (map entry_scm given) [] | _, _ => GUB NullDeref end = GOk m).
    { destruct given as [|kv given].
      - cbn [map]. rewrite <- (entered [] m HR). destruct v; reflexivity.
      - destruct HV as [-> |HV]; [|discriminate]. cbn [map]. change (entry_scm kv :: map entry_scm given) with (map entry_scm (kv :: given)).
        rewrite ser_entries_ok by exact HK. now rewrite entered with (m := m). }
    rewrite E. reflexivity.
  - unfold wf_frame. cbn [f_id f_body]. do 3 (split; [destruct v; first [reflexivity|discriminate]|]). split.
    + cbn [wf_body tc_tags tc_owner]. split; [apply HR|]. auto.
    + cbn [write_body]. unfold write_cloud, cstring. cbn [tc_owner]. intros E. apply Ok_inj in E. destruct own; discriminate E.
  - intros z w _. apply (de_known_ok _ _ _ _ FCloud); [destruct v; reflexivity|]. cbn [de_known f_body]. unfold de_cloud. cbn [tc_owner tc_tags].
    rewrite (from_utf8_ok G own HN HO). cbn [gbind]. change SNull with (slist []). rewrite (de_entries_ok G m HG HM). cbn [gbind f_flags].
    rewrite marks_plain, app_nil_r. reflexivity.
Qed.

(** ** Frames without a class *)
Lemma digits4 (ds : bytes) : len ds = 4 -> exists a b c d, ds = [a; b; c; d].
Proof.
  destruct ds as [|a [|b [|c [|d [|e ds]]]]]; intros H; try discriminate H; [eauto|].
  exfalso. rewrite !len_cons in H. lia.
Qed.
Lemma be32_digits ds : len ds = 4 -> Forall (fun d => d < 256) ds -> M_Ints.be32 (positional 256 ds) = ds /\ positional 256 ds < 2 ^ 32.
Proof.
  intros H F. apply digits4 in H as (a & b & c & d & ->). repeat (apply Forall_cons_iff in F as [? F]). rewrite be32_spec.
  unfold positional. cbn [fold_left]. change (2 ^ 32) with 4294967296. split; [repeat f_equal; lia|lia].
Qed.
Lemma safe_digits ds : len ds = 4 -> Forall (fun d => d < 128) ds -> sync_safe_from_unsigned (positional 128 ds) = Ok ds.
Proof.
  intros H F. apply digits4 in H as (a & b & c & d & ->). pose proof F as F0. repeat (apply Forall_cons_iff in F as [? F]).
  rewrite <- (sync_safe_roundtrip_r a b c d F0). f_equal. destruct (sync_safe_positional a b c d 0) as (_ & E & _). rewrite E.
  rewrite !N.mod_small by assumption. reflexivity.
Qed.
Lemma unknown_wire z v id data h : v <> V22 -> plain_header v id (len data) h ->
  wire_of z v (mkFrame id no_flags (BUnknown data)) = Ok (h ++ data).
Proof.
  intros HV (ds & H). destruct v; [congruence| |]; destruct H as (-> & H1 & H2 & H3); cbn [wire_of].
  - destruct (be32_digits ds H1 H2) as [B1 B2]. rewrite H3 in B1, B2. unfold wire23, header23. cbn [f_body write_body bind f_flags no_flags fl_cmp fl_enc fl_gid
      fl_tap fl_fap fl_ro is_some bit_if opt_bytes f_id].
    replace (4294967295 <? len data) with false by (symmetry; apply N.ltb_ge; change (2 ^ 32) with 4294967296 in B2; lia).
    cbn [bind]. rewrite !N.add_0_r, B1, <- !app_assoc. reflexivity.
  - pose proof (safe_digits ds H1 H2) as E. rewrite H3 in E. unfold wire24, header24. cbn [f_body write_body bind f_flags no_flags fl_cmp fl_enc fl_gid
      fl_tap fl_fap fl_ro fl_unsync fl_dli is_some bit_if opt_bytes f_id size_body].
    rewrite E. cbn [bind]. rewrite <- !app_assoc. reflexivity.
Qed.
Lemma unknown_flags v s a b c d rest : unmarked v a b c d ->
  match v with
  | V24 => gbind (slot 1 (s :: a :: b :: c :: d :: rest)) (fun a => gbind (slot 2 (s :: SNull :: b :: c :: d :: rest)) (fun b =>
             gbind (slot 3 (s :: SNull :: SNull :: c :: d :: rest)) (fun c => GOk (mkFl (is_f a) (is_f b) (is_t c) false None None (is_t c) false))))
  | _ => ser_flags v (s :: a :: b :: c :: d :: rest)
  end = GOk no_flags.
Proof.
  intros H. destruct v; try (now apply flags_plain). unfold slot. cbn [nth_error gbind]. destruct H as (A & C & D & E).
  now rewrite (is_f_not a), (is_f_not b), (is_t_not c).
Qed.

Lemma unknown_back G v u sym a b c d idt id h h' data : v <> V22 -> u = false -> (forall i, ~ documented_id v sym i) -> no_nul sym ->
  unmarked v a b c d -> no_nul idt -> g_to_locale G idt = Some id -> g_from_locale G id = Some idt ->
  no_nul id -> len id = id_width v -> kind_of v id = KUnknown ->
  len h = header_width v -> plain_header v id (len data) h' -> data <> [] ->
  writes_as G v u (SObj CUnk [SSym sym; a; b; c; d; SStr idt; SBytes (h ++ data)])
                  (SObj CUnk (SSym (B "unknown-frame") :: marks_read v ++ [SStr idt; SBytes (h' ++ data)])).
Proof.
  intros HV Hu HD HS HU HI HL HF HN HW HK Hh Hh' Hne. exists (mkFrame id no_flags (BUnknown data)).
  assert (W : len id = id_size v) by (rewrite HW; destruct v; reflexivity).
  split; [|split; [|split; [reflexivity|]]].
  - unfold ser. cbn [is_frame]. unfold slot at 1. cbn [nth_error gbind]. unfold symbol_text. rewrite (no_nul_has sym HS). cbn [gbind].
    rewrite (undocumented v sym HD). unfold ser_unknown. unfold slot at 1. cbn [nth_error gbind]. unfold to_locale. rewrite (to_utf8_ok idt HI). cbn [gbind].
    rewrite HL. cbn [gbind]. rewrite (c_str_id id HN). replace (len id + 1 <? id_size v) with false by (symmetry; apply N.ltb_ge; lia). cbn [gbind].
    rewrite takeN_app_exact by exact W. pose proof (unknown_flags v (SSym sym) a b c d [SStr idt; SBytes (h ++ data)] HU) as EF.
    assert (E : match v with
             | V24 => gbind (slot 1 [SSym sym; a; b; c; d; SStr idt; SBytes (h ++ data)]) (fun a0 =>
                 gbind (slot 2 [SSym sym; a; b; c; d; SStr idt; SBytes (h ++ data)]) (fun b0 => gbind (slot 3 [SSym sym; a; b; c; d; SStr idt; SBytes (h ++ data)]) (fun c0 =>
                 GOk (mkFl (is_f a0) (is_f b0) (is_t c0) false None None (is_t c0) false))))
             | _ => ser_flags v [SSym sym; a; b; c; d; SStr idt; SBytes (h ++ data)] end = GOk no_flags) by exact EF.
    rewrite E. cbn [gbind]. unfold slot. cbn [nth_error gbind bytevector]. rewrite len_app.
    assert (EH : header_size v = len h) by (rewrite Hh; destruct v; reflexivity). rewrite EH.
    replace (len h + len data <? len h) with false by (symmetry; apply N.ltb_ge; lia). rewrite dropN_app_exact by reflexivity. reflexivity.
  - unfold wf_frame. cbn [f_id f_body]. split; [exact HW|]. split; [|split; [exact HK|split; [exact Logic.I|]]].
    + destruct id as [|x id]; [destruct v; discriminate HW|]. cbn [hd]. intros ->. apply HN. left. reflexivity.
    + cbn [write_body]. intros E. apply Ok_inj in E. auto.
  - intros z w Hw. unfold de. cbn [new_frame c_frame f_id]. rewrite (de_unknown_id v id HK). unfold de_unknown. cbn [new_frame c_frame f_id f_flags].
    unfold from_locale. rewrite (c_str_id id HN), HF. cbn [gbind]. rewrite (Hw Hu). unfold frame_bytes, refresh. cbn [new_frame c_dirty c_frame].
    rewrite (unknown_wire z v id data h' HV Hh'). cbn [bind glift gbind].
    destruct v; [congruence| |]; cbn [cached c_plain]; now rewrite marks_plain.
Qed.

Lemma object_back G v u x y : comes_back G v u x y -> writes_as G v u x y.
Proof.
  intros H. destruct H.
  - eapply text_back; eassumption.
  - now apply comment_back.
  - now apply udt_back.
  - now apply count_back.
  - now apply popm_back.
  - now apply cloud_back with (given := given).
  - eapply unknown_back; eassumption.
Qed.
