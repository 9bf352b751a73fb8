(** * Lemmas: the dump command. *)
From Verif Require Import Base M_Ints M_Stream M_Id3v1 M_Payload M_Cloud M_Frame M_Tag22 M_Tag23 M_Tag24 M_Charset M_Lookup M_Mp3 M_Track M_Read
  M_Tagset M_Process M_Cmds M_Csv M_Genres M_Lang M_M3u M_Report M_Dump S_Ints S_Lookup S_Cmds S_Csv S_JsonTag S_Lang S_Read S_Stream S_M3u S_Dump
  L_Stream L_Ints L_Payload L_Read L_Track L_Csv L_Json4 L_Lang L_Cmds L_Popm L_M3u L_M3u2 L_M3u4 L_Report.
#[local] Open Scope N_scope.

(** ** Printing *)
Lemma pthen_ok_inv p q s : pthen p q = (s, Ok tt) -> exists a b, p = (a, Ok tt) /\ q = (b, Ok tt) /\ s = a ++ b.
Proof.
  unfold pthen. destruct p as (a, [[]|e|u|]), q as (b, r); cbn [fst snd]; intros E; try discriminate E.
  injection E as <- ->. eauto.
Qed.
Lemma put_inv x s : put x = (s, Ok tt) -> s = x.
Proof. unfold put. congruence. Qed.
Lemma pput_inv o s : pput o = (s, Ok tt) -> o = Ok s.
Proof. destruct o; cbn [pput]; congruence. Qed.
Lemma pall_ok_inv {A} (f : A -> pr) l : forall s, pall (map f l) = (s, Ok tt) -> exists ss, Forall2 (fun x b => f x = (b, Ok tt)) l ss /\ s = concat ss.
Proof.
  induction l as [|x l IH]; intros s E.
  - apply put_inv in E. subst s. exists []. split; [constructor|reflexivity].
  - cbn [map] in E. change (pall (f x :: map f l)) with (pthen (f x) (pall (map f l))) in E.
    apply pthen_ok_inv in E as (a & b & E1 & E2 & ->). destruct (IH _ E2) as (ss & F & ->). exists (a :: ss). split; [constructor; assumption|reflexivity].
Qed.
Ltac pinv H := repeat match type of H with
  | pthen _ _ = (_, Ok tt) => let a := fresh "a" in let b := fresh "b" in let H1 := fresh "H" in
      apply pthen_ok_inv in H as (a & b & H1 & H & ->); pinv H1
  | put _ = (?s, Ok tt) => apply put_inv in H; subst s
  | pput _ = (_, Ok tt) => apply pput_inv in H
  end.

Lemma unlines_app a b : unlines (a ++ b) = unlines a ++ unlines b.
Proof. apply flat_map_app. Qed.
Lemma unlines_concat l : unlines (concat l) = concat (map unlines l).
Proof. induction l as [|x l IH]; [reflexivity|]. cbn [concat map]. rewrite unlines_app, IH. reflexivity. Qed.
Lemma unlines1 x : unlines [x] = x ++ [10].
Proof. apply app_nil_r. Qed.
Lemma unlines_cons x l : unlines (x :: l) = x ++ 10 :: unlines l.
Proof. cbn [unlines flat_map]. rewrite <- app_assoc. reflexivity. Qed.
(** The same pieces, however they are put together. *)
Ltac pieces := unfold line_end; rewrite ?unlines_app, ?unlines_cons; change (unlines []) with (@nil N); repeat (progress (repeat rewrite <- app_assoc; cbn [app])); reflexivity.

Lemma lines_unlines ls : Forall (fun l => ~ In 10 l) ls -> lines (unlines ls) = ls.
Proof.
  induction 1 as [|x l Hx Hl IH]; [reflexivity|]. rewrite unlines_cons, lines_line by exact Hx. now rewrite IH.
Qed.

(** ** Numbers *)
Lemma hex_told b : in_hex b (hex_bytes b).
Proof.
  intros H. induction H as [|x l Hx Hl IH]; [reflexivity|]. unfold hex_bytes. cbn [flat_map]. now apply byte_digits.
Qed.
Lemma hex_one x : in_hex [x] (width2 (number 16 x)).
Proof. pose proof (hex_told [x]) as H. unfold hex_bytes in H. cbn [flat_map] in H. rewrite app_nil_r in H. exact H. Qed.
Lemma signed_told x : number_told x (signed_hex x).
Proof.
  intros H. unfold signed_hex. destruct (x <? 128) eqn:E.
  - exists (width2 (number 16 x)). split; [|reflexivity]. apply hex_one. constructor; [exact H|constructor].
  - assert (Q : forallb (fun x => (x <? 128) || bytes_eqb (width2 (number 16 (x + (2 ^ 32 - 256)))) (B "ffffff" ++ width2 (number 16 x))) (map N.of_nat (seq 0 256)) = true)
      by (vm_compute; reflexivity).
    rewrite forallb_forall in Q. assert (I1 : In x (map N.of_nat (seq 0 256))) by (apply in_map_iff; exists (N.to_nat x); split; [lia|apply in_seq; lia]).
    apply Q in I1. rewrite E in I1. cbn [orb] in I1. apply bytes_eqb_eq in I1. rewrite I1.
    exists (width2 (number 16 x)). split; [|reflexivity]. apply hex_one. constructor; [exact H|constructor].
Qed.

(** ** The language of a comment *)
Lemma cstr_short l : len (cstr l) <= len l /\ (len (cstr l) = len l -> cstr l = l).
Proof.
  induction l as [|x l (IH1 & IH2)]; [split; [apply N.le_refl|reflexivity]|]. cbn [cstr]. destruct (x =? 0).
  - rewrite len_cons. split; [apply N.le_0_l|]. unfold len at 1. cbn [length]. lia.
  - rewrite !len_cons. split; [lia|]. intros E. rewrite IH2; [reflexivity|lia].
Qed.
Lemma known_read : forallb (fun q => match read_language (cstr (spelling (fst q))) with Ok _ => true | _ => false end) iso_639 = true.
Proof. vm_compute. reflexivity. Qed.
Lemma language_told l s : (let* x := read_language (cstr l) in write_language x) = Ok s -> len l = 3 -> known_language l /\ s = l.
Proof.
  intros E L. apply bind_ok in E as (x & E & W). apply lang_read_exact_l in E as (c & SC & FW & W2).
  rewrite W in W2. apply Ok_inj in W2. subst s. apply lang_write_read_l in W as (_ & L3).
  destruct FW as (pre & post & E & _). destruct (cstr_short l) as (C1 & C2). assert (L4 := f_equal len E). rewrite !len_app in L4.
  assert (P1 : pre = []) by (apply len_0_nil; lia). assert (P2 : post = []) by (apply len_0_nil; lia). subst pre post. rewrite app_nil_r in E. cbn [app] in E.
  rewrite C2 in E by (rewrite E; lia). split; [exists c; auto|]. symmetry. exact E.
Qed.
Lemma language_unknown l e : read_language (cstr l) = Throw e -> ~ known_language l.
Proof.
  intros E (c & SC & ->). unfold standard_code in SC. apply in_map_iff in SC as (q & <- & I1). pose proof known_read as K. rewrite forallb_forall in K.
  apply K in I1. rewrite E in I1. discriminate I1.
Qed.
Lemma comment_lang_told c s : comment_lang c = Ok s -> exists l, co_lang c = Some l /\ told_language l s.
Proof.
  unfold comment_lang. intros E. apply bind_ok in E as (l & E1 & E). unfold M_Id3v1.init in E1. destruct (co_lang c) as [l'|]; [|discriminate E1].
  apply Ok_inj in E1. subst l'. exists l. split; [reflexivity|].
  destruct l as [|a [|b [|d [|? ?]]]]; try discriminate E.
  destruct (read_language (cstr [a; b; d])) as [x|e|u|] eqn:R; try discriminate E.
  - left. apply language_told; [rewrite R; exact E|reflexivity].
  - right. split; [exact (language_unknown _ _ R)|]. apply Ok_inj in E. exists a, b, d, (signed_hex a), (signed_hex b), (signed_hex d).
    split; [reflexivity|]. repeat (split; [apply signed_told|]). symmetry. exact E.
Qed.

(** ** Texts *)
Lemma ascii_told w b s : from_ascii w b = Ok s -> told_ascii (w_ic w) b s.
Proof.
  unfold from_ascii, told_ascii. destruct b; intros E; [left; split; [reflexivity|congruence]|right; split; [discriminate|exact E]].
Qed.
Lemma comm_told w v c b s no : comm_text w v c b = Ok s -> told_or (w_ic w) v (co_unicode c) b no (or_else s no).
Proof.
  unfold comm_text, told_or, or_else. intros E. exists s. split; [|destruct s; reflexivity].
  destruct b as [|x b]; [left; split; [reflexivity|congruence]|right; split; [discriminate|]].
  apply bind_ok in E as (u & U & E). unfold M_Id3v1.init in U. destruct (co_unicode c) as [n|]; [|discriminate U]. apply Ok_inj in U. subst u. exists n. split; [reflexivity|exact E].
Qed.
Lemma positional4 c : is_bytes c -> (length c <= 4)%nat -> positional 256 c < 2 ^ 32.
Proof.
  unfold is_bytes, is_byte. intros H L. change (2 ^ 32) with 4294967296.
  destruct c as [|a [|b [|d [|e [|? ?]]]]]; cbn [length] in L; try lia; unfold positional; cbn [fold_left];
    repeat match goal with H : Forall _ (_ :: _) |- _ => inversion H; clear H; subst end; lia.
Qed.
Lemma count_told c n : counter_value c = Ok n -> 1 <= len c /\ len c <= 4 /\ (is_bytes c -> n mod 2 ^ 32 = positional 256 c).
Proof.
  intros E. pose proof (counter_value_len _ _ E) as L. unfold len. split; [lia|]. split; [lia|]. intros H.
  rewrite (counter_value_positional c H L) in E. apply Ok_inj in E. subst n. apply N.mod_small, positional4; [exact H|lia].
Qed.
Lemma visible_is x : asciify x = visible x.
Proof. unfold asciify, visible. replace (31 <? x) with (32 <=? x) by lia. replace (x <? 127) with (x <=? 126) by lia. reflexivity. Qed.
Lemma separated_spaced h l : h ++ flat_map (fun y => 32 :: width2 (number 16 y)) l = separated [32] (h :: map (fun y => width2 (number 16 y)) l).
Proof.
  revert h. induction l as [|y l IH]; intros h; [cbn; apply app_nil_r|]. cbn [flat_map map separated]. cbn [app]. rewrite IH. reflexivity.
Qed.
Lemma view_told ind b s : pprint_binary ind b = Ok s -> b <> [] /\ exists x, byte_view b x /\ s = ind ++ x.
Proof.
  unfold pprint_binary. destruct b as [|a b]; [discriminate|]. intros E. apply Ok_inj in E. subst s. split; [discriminate|].
  exists (separated [32] (map (fun y => width2 (number 16 y)) (a :: b)) ++ B "  >" ++ map visible (a :: b) ++ B "<"). split.
  - exists (map (fun y => width2 (number 16 y)) (a :: b)). split; [|reflexivity].
    induction (a :: b) as [|y l IH]; [constructor|]. cbn [map]. constructor; [apply hex_one|exact IH].
  - f_equal. rewrite (List.map_ext _ _ visible_is). cbn [map]. rewrite <- separated_spaced, <- !app_assoc. reflexivity.
Qed.
Lemma values_joined vs : cloud_values vs = separated (B ", ") vs.
Proof.
  destruct vs as [|v r]; [reflexivity|]. unfold cloud_values. revert v. induction r as [|y r IH]; intros v; [cbn; apply app_nil_r|].
  cbn [flat_map separated]. rewrite <- app_assoc, IH. reflexivity.
Qed.

(** ** Frames *)
Lemma dump_frame_told d w v f s : print_any_frame d w v f = (s, Ok tt) ->
  exists ls, frame_lines (sin d) (w_ic w) v f ls /\ s = unlines ls.
Proof.
  intros E. unfold print_any_frame in E.
  assert (E' : dump_frame d w v f = (s, Ok tt) /\ (v = V24 -> match f_body f with BCloud _ | BPriv _ => False | _ => True end)).
  { destruct v; (split; [exact E || (destruct (f_body f); try exact E; discriminate E)|]); try discriminate; intros _; destruct (f_body f); try discriminate E; trivial. }
  clear E. destruct E' as (E & NV). unfold dump_frame in E. cbv zeta in E. destruct (f_body f) as [b|u|e|t|t|c|c|p|c|p] eqn:BD.
  - apply put_inv in E. subst s. destruct v.
    + exists [sin d ++ f_id f ++ B ": UNKNOWN"]. split; [eapply fl_unknown2; eauto|]. pieces.
    + exists [B "frame " ++ f_id f ++ B " (" ++ number 10 (len b) ++ B " bytes)"]. split; [eapply fl_unknown; eauto; [discriminate|apply as_decimal_number]|]. pieces.
    + exists [B "frame " ++ f_id f ++ B " (" ++ number 10 (len b) ++ B " bytes)"]. split; [eapply fl_unknown; eauto; [discriminate|apply as_decimal_number]|]. pieces.
  - pinv E. eexists. split; [eapply fl_ufid; [exact BD|apply ascii_told; exact H|apply hex_told]|]. destruct v; pieces.
  - pinv E. apply bind_ok in H0 as (m & M & H0). apply Ok_inj in H0. subst. unfold M_Id3v1.init in M. destruct (en_method e) as [m'|] eqn:EM; [|discriminate M].
    apply Ok_inj in M. subst m'. eexists. split; [eapply fl_encr; [exact BD|apply ascii_told; exact H|exact EM]|]. pieces.
  - pinv E. eexists. split; [eapply fl_text; exists t; split; [exact BD|exact H]|]. pieces.
  - pinv E. eexists. split; [eapply fl_user; [exact BD|exact H|exact H0]|]. pieces.
  - apply pput_inv in E. apply bind_ok in E as (l & L & E). apply bind_ok in E as (x & X & E). apply bind_ok in E as (y & Y & E). apply Ok_inj in E. subst s.
    apply comment_lang_told in L as (l0 & L1 & L2). eexists. split; [eapply fl_comment; [exact BD|exact L1|exact L2|eapply comm_told; exact X|eapply comm_told; exact Y]|]. pieces.
  - pinv E. apply bind_ok in H as (n & C & H). apply Ok_inj in H. subst. destruct (count_told _ _ C) as (C1 & C2 & C3).
    eexists. split; [eapply (fl_count _ _ _ _ c (number 10 (n mod 2 ^ 32))); [exact BD|exact C1|exact C2|intros HB; rewrite as_decimal_number, C3 by exact HB; reflexivity]|]. pieces.
  - pinv E. eexists. split; [eapply fl_popm; [exact BD|apply ascii_told; exact H|apply as_decimal_number|apply hex_told]|]. pieces.
  - apply put_inv in E. subst s. eexists. split; [eapply fl_cloud; [exact BD|intros ->; exact (NV eq_refl)]|].
    rewrite unlines_app. assert (Q : unlines (map (fun kv => sin d ++ fst kv ++ B ": " ++ separated (B ", ") (snd kv)) (tc_tags c)) = flat_map (cloud_line d) (tc_tags c)).
    { clear. induction (tc_tags c) as [|kv l IH]; [reflexivity|]. cbn [map flat_map]. rewrite unlines_cons, IH. unfold cloud_line. rewrite values_joined. pieces. }
    rewrite Q. pieces.
  - pinv E. apply bind_ok in H as (o & O & H). apply Ok_inj in H. subst. apply view_told in H0 as (NE & x & V & ->). rewrite takeN_firstn in V, NE.
    eexists. split; [eapply fl_priv; [exact BD|intros ->; exact (NV eq_refl)|apply ascii_told; exact O| |apply as_decimal_number|exact V]|]; [|pieces].
    intros Q. rewrite Q in NE. apply NE. reflexivity.
Qed.

(** ** Whatever can be told is printed. *)
Lemma put_ok s : snd (put s) = Ok tt.
Proof. reflexivity. Qed.
Lemma pput_some o s : o = Ok s -> snd (pput o) = Ok tt.
Proof. intros ->. reflexivity. Qed.
Lemma pthen_snd p q : snd p = Ok tt -> snd q = Ok tt -> snd (pthen p q) = Ok tt.
Proof. intros H1 H2. unfold pthen. rewrite H1. exact H2. Qed.
Ltac printed := repeat first [apply pthen_snd | apply put_ok].

Lemma ascii_can w b s : told_ascii (w_ic w) b s -> from_ascii w b = Ok s.
Proof. intros [(-> & ->)|(N1 & E)]; [reflexivity|]. destruct b; [congruence|exact E]. Qed.
Lemma comm_can w v c b no s : told_or (w_ic w) v (co_unicode c) b no s -> exists x, comm_text w v c b = Ok x.
Proof.
  intros (x & [(-> & ->)|(N1 & n & U & T)] & _); [exists []; reflexivity|]. exists x. unfold comm_text. destruct b; [congruence|]. rewrite U. exact T.
Qed.
Lemma language_can c l s : co_lang c = Some l -> told_language l s -> exists x, comment_lang c = Ok x.
Proof.
  intros L T. unfold comment_lang. rewrite L. cbn [M_Id3v1.init bind]. assert (L3 : exists a b d, l = [a; b; d]).
  { destruct T as [((q & SC & ->) & _)|(_ & a & b & d & ? & ? & ? & -> & _)]; [|eauto].
    unfold standard_code in SC. apply in_map_iff in SC as (p & <- & I1).
    assert (K : forallb (fun q => len (spelling (fst q)) =? 3) iso_639 = true) by (vm_compute; reflexivity). rewrite forallb_forall in K. apply K, N.eqb_eq in I1.
    destruct (spelling (fst p)) as [|a [|b [|d [|? ?]]]]; try discriminate I1; eauto. unfold len in I1. cbn [length] in I1. lia. }
  destruct L3 as (a & b & d & ->). destruct (read_language (cstr [a; b; d])) as [x|e|u|] eqn:R; [|eauto|..].
  - apply lang_read_exact_l in R as (q & _ & _ & W). eauto.
  - destruct (lang_read_total_l (cstr [a; b; d])) as [(x & C)|C]; rewrite R in C; discriminate C.
  - destruct (lang_read_total_l (cstr [a; b; d])) as [(x & C)|C]; rewrite R in C; discriminate C.
Qed.
Lemma counter_can c : 1 <= len c -> len c <= 4 -> exists n, counter_value c = Ok n.
Proof.
  unfold len. intros H1 H2. destruct c as [|a [|b [|d [|e [|? ?]]]]]; cbn [length] in H1, H2; try lia; cbn [counter_value]; eauto.
Qed.
Lemma dump_frame_can d w v f ls : frame_lines (sin d) (w_ic w) v f ls -> snd (print_any_frame d w v f) = Ok tt.
Proof.
  intros H. assert (G : snd (dump_frame d w v f) = Ok tt /\ (v = V24 -> match f_body f with BCloud _ | BPriv _ => False | _ => True end)).
  { unfold dump_frame. destruct H as [b H V|b n H V D|s (t & H & R)|u o h H O HX|u x t H D T|c l s x t H L S1 D T|c n H C1 C2 D|p e n h H E D HX|c H V|e a m H A M|p o n s H V O N1 D BV];
      rewrite H; (split; [|trivial]); try (intros ->; congruence).
    - apply put_ok.
    - apply put_ok.
    - printed. eapply pput_some. exact R.
    - printed. eapply pput_some, ascii_can. exact O.
    - printed; eapply pput_some; eassumption.
    - destruct (language_can _ _ _ L S1) as (l' & ->). destruct (comm_can _ _ _ _ _ _ D) as (x' & ->). destruct (comm_can _ _ _ _ _ _ T) as (t' & ->). reflexivity.
    - printed. destruct (counter_can _ C1 C2) as (k & ->). reflexivity.
    - printed. eapply pput_some, ascii_can. exact E.
    - apply put_ok.
    - printed; [eapply pput_some, ascii_can; exact A|]. rewrite M. reflexivity.
    - printed; [rewrite (ascii_can _ _ _ O); reflexivity|]. destruct (pr_contents p) as [|y l]; [congruence|]. rewrite takeN_firstn. reflexivity. }
  destruct G as (G & NV). unfold print_any_frame. destruct v; try exact G. destruct (f_body f); try exact G; elim (NV eq_refl).
Qed.

(** ** Tags *)
Lemma all_text v : kind_of v (artist_id v) = KText /\ kind_of v (title_id v) = KText /\ kind_of v (album_id v) = KText /\ kind_of v (year_id v) = KText /\
  kind_of v (track_id v) = KText /\ kind_of v (content_id v) = KText /\ kind_of v (encoder_id v) = KText.
Proof. destruct v; repeat split; reflexivity. Qed.
Lemma has_id_iff t id : fresh t -> has_id t id = true <-> has t id.
Proof. intros F. unfold has_id. apply has_frame_iff. exact F. Qed.
Lemma has_id_not t id : fresh t -> has_id t id = false <-> ~ has t id.
Proof. intros F. rewrite <- not_true_iff_false. now rewrite has_id_iff. Qed.
Lemma tag_text_tells w t id s : fresh t -> kind_of (any_version t) id = KText -> has t id -> tag_text w t id = Ok s -> tag_tells (w_ic w) t id s.
Proof.
  intros F K H E. destruct (v2_text_told w (mkM3u None E_UTF_8 NoFail) t id F K H) as (f & I1 & x & BT & R). exists f. split; [exact I1|]. exists x. split; [exact BT|].
  cbn [m3_dst m3_rsp m3_src] in R. rewrite R. exact E.
Qed.
Lemma text_or_told w t id no s : fresh t -> kind_of (any_version t) id = KText -> text_or w t id no = Ok s -> text_for (w_ic w) t id no s.
Proof.
  intros F K. unfold text_or. destruct (has_id t id) eqn:H.
  - apply has_id_iff in H; [|exact F]. intros E. left. split; [exact H|]. now apply tag_text_tells.
  - apply has_id_not in H; [|exact F]. intros E. apply Ok_inj in E. right. auto.
Qed.
Lemma if_told_inv w t id a b s : fresh t -> kind_of (any_version t) id = KText ->
  (if has_id t id then pthen (put a) (pthen (pput (tag_text w t id)) (put b)) else put []) = (s, Ok tt) -> if_told (w_ic w) t id a b s.
Proof.
  intros F K. destruct (has_id t id) eqn:H; intros E.
  - apply has_id_iff in H; [|exact F]. pinv E. left. split; [exact H|]. match goal with T : tag_text _ _ _ = Ok ?x |- _ => exists x; split; [now apply tag_text_tells|reflexivity] end.
  - apply has_id_not in H; [|exact F]. apply put_inv in E. right. auto.
Qed.
Lemma line_told_inv w t id a s : fresh t -> kind_of (any_version t) id = KText ->
  (if has_id t id then pthen (put a) (pthen (pput (tag_text w t id)) (put line_end)) else put []) = (s, Ok tt) ->
  exists ls, line_if_told (w_ic w) t id a ls /\ s = unlines ls.
Proof.
  intros F K E. apply if_told_inv in E; [|exact F|exact K]. destruct E as [(H & x & T & ->)|(H & ->)].
  - exists [a ++ x]. split; [left; split; [exact H|eauto]|]. pieces.
  - exists []. split; [right; auto|reflexivity].
Qed.
Lemma wrap_mod n : wrap64 n = n mod 2 ^ 64.
Proof. reflexivity. Qed.
Lemma summary_told d z w rev t s : fresh t -> print_id3v2_tag d z w rev t = (s, Ok tt) ->
  exists ls, summary_lines (sin d) z (w_ic w) rev t ls /\ s = unlines ls.
Proof.
  intros F. unfold print_id3v2_tag. destruct (all_text (any_version t)) as (K1 & K2 & K3 & K4 & K5 & K6 & K7).
  destruct (bind _ _) as [(((a, b), c), y)|e|u|] eqn:E0; try discriminate.
  apply bind_ok in E0 as (a' & A & E0). apply bind_ok in E0 as (b' & B1 & E0). apply bind_ok in E0 as (c' & C & E0). apply bind_ok in E0 as (y' & Y & E0).
  apply Ok_inj in E0. injection E0 as -> -> -> ->.
  apply text_or_told in A; [|exact F|exact K1]. apply text_or_told in B1; [|exact F|exact K2]. apply text_or_told in C; [|exact F|exact K3]. apply text_or_told in Y; [|exact F|exact K4].
  intros E. apply pthen_ok_inv in E as (s1 & r1 & E1 & E & ->). apply put_inv in E1. subst s1.
  apply pthen_ok_inv in E as (s2 & r2 & E2 & E & ->). apply pput_inv in E2. apply bind_ok in E2 as ((n, t') & SZ & E2). apply Ok_inj in E2. subst s2.
  apply pthen_ok_inv in E as (s3 & r3 & E3 & E & ->). apply put_inv in E3. subst s3.
  apply pthen_ok_inv in E as (s4 & r4 & E4 & E & ->). apply if_told_inv in E4; [|exact F|exact K5].
  apply pthen_ok_inv in E as (s5 & r5 & E5 & E & ->). apply put_inv in E5. subst s5.
  apply pthen_ok_inv in E as (s6 & s7 & E6 & E7 & ->). apply line_told_inv in E6; [|exact F|exact K6]. apply line_told_inv in E7; [|exact F|exact K7].
  destruct E6 as (l6 & E6 & ->), E7 as (l7 & E7 & ->).
  eexists. split.
  - exists (number 10 rev), n, t', (number 10 (wrap64 n)), (width2 (number 16 (any_flags t))), a, b, c, s4, y, l6, l7.
    split; [apply as_decimal_number|]. split; [exact SZ|]. split; [rewrite as_decimal_number; reflexivity|]. split; [apply (hex_one (any_flags t))|].
    split; [exact A|]. split; [exact B1|]. split; [exact C|]. split; [exact E4|]. split; [exact Y|]. split; [exact E6|]. split; [exact E7|]. reflexivity.
  - replace (number 10 (version_number (any_version t))) with (version_digit (any_version t)) by (destruct (any_version t); reflexivity).
    change (any_unsync t) with (said_unsync t). pieces.
Qed.

Lemma lines_text ind ic v f ls x : frame_lines ind ic v f ls -> f_body f = BText x -> exists s, text_as_str v ic x E_UTF_8 NoFail None = Ok s.
Proof. intros H E. destruct H; try congruence. destruct H as (t & BT & R). assert (t = x) by congruence. subst t. eauto. Qed.
Lemma texts_of_lines ind ic t fls : Forall2 (frame_lines ind ic (any_version t)) (shown t) fls -> texts_read ic t.
Proof.
  intros FL f x I1 BT. assert (Q : exists ls, frame_lines ind ic (any_version t) f ls).
  { clear - FL I1. induction FL as [|g l gs ls G FL IH]; [destruct I1|]. destruct I1 as [->|I1]; eauto. }
  destruct Q as (ls & Q). eapply lines_text; eassumption.
Qed.
Lemma tag_text_can w t id : fresh t -> kind_of (any_version t) id = KText -> texts_read (w_ic w) t ->
  has t id -> exists s, tag_text w t id = Ok s.
Proof.
  intros F K FL H. destruct (v2_text_told w (mkM3u None E_UTF_8 NoFail) t id F K H) as (f & I1 & x & BT & R). cbn [m3_dst m3_rsp m3_src] in R.
  apply filter_In in I1 as (I1 & _). destruct (FL _ _ I1 BT) as (s & E). exists s. unfold tag_text. rewrite <- R. exact E.
Qed.
Lemma text_or_can w t id no : fresh t -> kind_of (any_version t) id = KText -> texts_read (w_ic w) t ->
  exists s, text_or w t id no = Ok s.
Proof.
  intros F K FL. unfold text_or. destruct (has_id t id) eqn:H; [|eauto]. apply has_id_iff in H; [|exact F]. eapply tag_text_can; eassumption.
Qed.
Lemma if_told_can w t id a b : fresh t -> kind_of (any_version t) id = KText -> texts_read (w_ic w) t ->
  snd (if has_id t id then pthen (put a) (pthen (pput (tag_text w t id)) (put b)) else put []) = Ok tt.
Proof.
  intros F K FL. destruct (has_id t id) eqn:H; [|reflexivity]. apply has_id_iff in H; [|exact F].
  destruct (tag_text_can _ _ _ F K FL H) as (s & E). rewrite E. reflexivity.
Qed.
Lemma summary_can d z w rev t n t' : fresh t -> any_size z t false = Ok (n, t') ->
  texts_read (w_ic w) t -> snd (print_id3v2_tag d z w rev t) = Ok tt.
Proof.
  intros F SZ FL. unfold print_id3v2_tag. destruct (all_text (any_version t)) as (K1 & K2 & K3 & K4 & K5 & K6 & K7).
  destruct (text_or_can w t _ (B "<no artist>") F K1 FL) as (a & ->). destruct (text_or_can w t _ (B "<no title>") F K2 FL) as (b & ->).
  destruct (text_or_can w t _ (B "<no album>") F K3 FL) as (c & ->). destruct (text_or_can w t _ (B "<no year>") F K4 FL) as (y & ->). cbn [bind].
  apply pthen_snd; [apply put_ok|]. apply pthen_snd; [rewrite SZ; reflexivity|]. apply pthen_snd; [apply put_ok|]. apply pthen_snd; [eapply if_told_can; eassumption|].
  apply pthen_snd; [apply put_ok|]. apply pthen_snd; eapply if_told_can; eassumption.
Qed.
Lemma Forall2_map_l {A C D} (P : C -> D -> Prop) (f : A -> C) l m : Forall2 P (map f l) m <-> Forall2 (fun a d => P (f a) d) l m.
Proof.
  revert m. induction l as [|x l IH]; intros m; cbn [map].
  - split; intros H; inversion H; constructor.
  - split; intros H; inversion H; subst; constructor; try assumption; apply IH; assumption.
Qed.
Lemma frames_told d w v (l : list cframe) ss : Forall2 (fun c b => print_any_frame d w v (c_frame c) = (b, Ok tt)) l ss ->
  exists fls, Forall2 (frame_lines (sin d) (w_ic w) v) (map c_frame l) fls /\ concat ss = unlines (concat fls).
Proof.
  induction 1 as [|c b l ss E H (fls & F & Q)]; [exists []; split; [constructor|reflexivity]|].
  apply dump_frame_told in E as (ls & L & ->). exists (ls :: fls). cbn [map concat]. split; [constructor; assumption|]. now rewrite unlines_app, Q.
Qed.
Lemma dump_tag_told d z w rt s : fresh (snd rt) -> dump_tag d z w rt = (s, Ok tt) -> exists ls, tag_lines (sin d) z (w_ic w) (fst rt) (snd rt) ls /\ s = unlines ls.
Proof.
  intros F E. destruct rt as (rev, t). cbn [fst snd] in *. unfold dump_tag in E. cbn [fst snd] in E.
  apply pthen_ok_inv in E as (s1 & r & E1 & E & ->). apply pthen_ok_inv in E as (s2 & s3 & E2 & E3 & ->). apply put_inv in E3. subst s3.
  apply summary_told in E1 as (sum & S1 & ->); [|exact F]. apply pall_ok_inv in E2 as (ss & FF & ->). apply frames_told in FF as (fls & FL & ->).
  eexists. split.
  - exists sum, fls, (number 10 (any_padding t)). split; [exact S1|]. split; [exact FL|]. split; [apply as_decimal_number|]. reflexivity.
  - pieces.
Qed.
Lemma frames_can d w v (l : list cframe) fls : Forall2 (fun c ls => frame_lines (sin d) (w_ic w) v (c_frame c) ls) l fls ->
  snd (pall (map (fun c => print_any_frame d w v (c_frame c)) l)) = Ok tt.
Proof.
  induction 1 as [|c ls l fls H FL IH]; [reflexivity|].
  change (snd (pthen (print_any_frame d w v (c_frame c)) (pall (map (fun c => print_any_frame d w v (c_frame c)) l))) = Ok tt).
  apply pthen_snd; [eapply dump_frame_can; exact H|exact IH].
Qed.
Lemma dump_tag_can d z w rt ls : fresh (snd rt) -> tag_lines (sin d) z (w_ic w) (fst rt) (snd rt) ls -> snd (dump_tag d z w rt) = Ok tt.
Proof.
  intros F (sum & fls & p & S1 & FL & _). destruct rt as (rev, t). cbn [fst snd] in *. unfold dump_tag. cbn [fst snd].
  destruct S1 as (r & k & t' & n & h & ? & ? & ? & ? & ? & ? & ? & _ & SZ & _).
  apply pthen_snd; [eapply summary_can; [exact F|exact SZ|eapply texts_of_lines; exact FL]|]. apply pthen_snd; [|apply put_ok]. eapply frames_can, Forall2_map_l. exact FL.
Qed.

(** ** The track and the ID3v1 tag *)
Lemma dump_track_told d tr : exists ls, track_lines (sin d) (tr_size tr) (tr_md5 tr) ls /\ dump_track d tr = unlines ls.
Proof.
  eexists. split; [exists (number 10 (tr_size tr)), (hex_bytes (tr_md5 tr)); split; [apply as_decimal_number|split; [apply hex_told|reflexivity]]|]. unfold dump_track. pieces.
Qed.
Lemma genre_text g : text_for_genre g = nth_error genres (N.to_nat g).
Proof.
  unfold text_for_genre. destruct (N.leb_spec (len genres) g) as [H|H]; [|reflexivity]. symmetry. apply nth_error_None. unfold len in H. lia.
Qed.
Lemma dump_v1_told d w t s : dump_v1 d w t = (s, Ok tt) -> exists ls, v1_lines (sin d) (ds_expand d) (w_ic w) (ds_v1enc d) t ls /\ s = unlines ls.
Proof.
  intros E. unfold dump_v1, v1_text in E.
  apply pthen_ok_inv in E as (s1 & r1 & E1 & E & ->). apply put_inv in E1. subst s1.
  apply pthen_ok_inv in E as (artist & r2 & A & E & ->). apply pput_inv in A.
  apply pthen_ok_inv in E as (s3 & r3 & E3 & E & ->). apply put_inv in E3. subst s3.
  apply pthen_ok_inv in E as (title & r4 & T & E & ->). apply pput_inv in T.
  apply pthen_ok_inv in E as (s5 & r5 & E5 & E & ->). apply put_inv in E5. subst s5.
  apply pthen_ok_inv in E as (album & r6 & AL & E & ->). apply pput_inv in AL.
  apply pthen_ok_inv in E as (track & r7 & TR & E & ->).
  apply pthen_ok_inv in E as (s8 & r8 & E8 & E & ->). apply put_inv in E8. subst s8.
  apply pthen_ok_inv in E as (year & r9 & Y & E & ->). apply pput_inv in Y.
  apply pthen_ok_inv in E as (s10 & r10 & E10 & E & ->). apply put_inv in E10. subst s10.
  apply pthen_ok_inv in E as (comment & r11 & C & E & ->). apply pput_inv in C.
  apply pthen_ok_inv in E as (s12 & r12 & E12 & E & ->). apply put_inv in E12. subst s12.
  apply pthen_ok_inv in E as (g & s13 & G & E & ->). apply put_inv in E. subst s13.
  assert (TR' : if v_v1_1 t then exists k n, v_track t = Some k /\ as_decimal n = Some k /\ track = B " (track " ++ n ++ B ")" else track = []).
  { destruct (v_v1_1 t); [|now apply put_inv in TR]. apply pput_inv in TR. apply bind_ok in TR as (k & K & TR). apply Ok_inj in TR.
    unfold M_Id3v1.init in K. destruct (v_track t) as [k'|]; [|discriminate K]. apply Ok_inj in K. subst k'. exists k, (number 10 k). split; [reflexivity|]. split; [apply as_decimal_number|]. symmetry. exact TR. }
  destruct (v_extended t) eqn:X.
  - apply pthen_ok_inv in G as (xg & q1 & G1 & G & ->). apply pput_inv in G1.
    apply pthen_ok_inv in G as (q2 & q3 & G2 & G & ->). apply put_inv in G2. subst q2.
    destruct (v_start t) as [st|] eqn:ST; [|apply pthen_ok_inv in G as (? & ? & C1 & _); discriminate C1].
    apply pthen_ok_inv in G as (st' & q4 & G4 & G & ->). apply pput_inv in G4.
    apply pthen_ok_inv in G as (q5 & q6 & G5 & G & ->). apply put_inv in G5. subst q5.
    destruct (v_end t) as [en|] eqn:EN; [|apply pthen_ok_inv in G as (? & ? & C1 & _); discriminate C1].
    apply pthen_ok_inv in G as (en' & q7 & G7 & G & ->). apply pput_inv in G7. apply pput_inv in G. apply bind_ok in G as (k & K & G). apply Ok_inj in G. subst q7.
    unfold M_Id3v1.init in K. destruct (v_speed t) as [k'|] eqn:SP; [|discriminate K]. apply Ok_inj in K. subst k'.
    eexists. split.
    + exists artist, title, album, track, year, comment, [sin d ++ xg ++ B "/" ++ (if ds_expand d then match text_for_genre (v_genre t) with Some s => s | None => B "unrecognized genre" end else genre_number (v_genre t));
        sin d ++ st' ++ B "-" ++ en' ++ B ": speed " ++ number 10 k; []].
      rewrite X. split; [exact A|]. split; [exact T|]. split; [exact AL|]. split; [exact Y|]. split; [exact C|]. split; [exact TR'|]. split; [|reflexivity].
      exists xg, (if ds_expand d then match text_for_genre (v_genre t) with Some s => s | None => B "unrecognized genre" end else genre_number (v_genre t)), st, st', en, en', k, (number 10 k).
      split; [exact G1|]. split; [exists (number 10 (v_genre t)); rewrite genre_text; split; [apply as_decimal_number|reflexivity]|].
      split; [exact ST|]. split; [exact G4|]. split; [exact EN|]. split; [exact G7|]. split; [exact SP|]. split; [apply as_decimal_number|]. reflexivity.
    + pieces.
  - apply put_inv in G. subst g. eexists. split.
    + exists artist, title, album, track, year, comment, [sin d ++ (if ds_expand d then match text_for_genre (v_genre t) with Some s => s | None => B "unknown genre " ++ number 10 (v_genre t) end else genre_number (v_genre t))].
      rewrite X. split; [exact A|]. split; [exact T|]. split; [exact AL|]. split; [exact Y|]. split; [exact C|]. split; [exact TR'|]. split; [|reflexivity].
      eexists. split; [exists (number 10 (v_genre t)); rewrite <- genre_text; split; [apply as_decimal_number|reflexivity]|]. reflexivity.
    + pieces.
Qed.
Lemma dump_v1_can d w t ls : v1_lines (sin d) (ds_expand d) (w_ic w) (ds_v1enc d) t ls -> snd (dump_v1 d w t) = Ok tt.
Proof.
  intros (artist & title & album & track & year & comment & rest & A & T & AL & Y & C & TR & R & _). unfold dump_v1, v1_text. unfold told_v1 in *.
  rewrite A, T, AL, Y, C. repeat (apply pthen_snd; [reflexivity|]). apply pthen_snd.
  { destruct (v_v1_1 t); [|reflexivity]. destruct TR as (k & n & -> & _). reflexivity. }
  repeat (apply pthen_snd; [reflexivity|]). apply pthen_snd; [|reflexivity]. destruct (v_extended t); [|reflexivity].
  destruct R as (xg & g & s & s' & x & x' & k & n & R1 & _ & S1 & S2 & X1 & X2 & K & _). rewrite R1, S1, S2, X1, X2, K. reflexivity.
Qed.

(** ** Reading *)
Lemma revs_inv z passes e data : forall fuel pos rts s', pos <= len data ->
  read_revs_loop z passes fuel (mkIs data pos e 0) = (Ok rts, s') ->
  exists l ts, tags_from data pos l /\ tags_end pos l <= len data /\ Forall2 (good_read z passes data) l ts /\ Forall fresh ts /\
            rts = map (fun ht => (hd_rev (fst ht), snd ht)) (combine l ts) /\ s' = mkIs data (tags_end pos l) e 0.
Proof.
  induction fuel as [|fuel IH]; intros pos rts s' HP H; [discriminate H|].
  cbn [read_revs_loop] in H. unfold sbind at 1 in H. unfold maybe_read_rev in H. unfold sbind at 1 in H.
  destruct (looking_at_exact data pos e false) as [(v & r & f & sz & HH & E)|(NO & E)].
  - rewrite E in H. cbv iota in H. unfold sbind at 1 in H.
    pose proof (header_fits _ _ _ _ _ _ HH) as HFit.
    destruct (N.leb_spec (pos + 10 + sz) (len data)) as [HL|HL].
    + destruct (read_version_at z passes v r f sz data (pos + 10) e HL) as (R1 & R2).
      destruct (read_version z passes (mkInfo v r f sz) (mkIs data (pos + 10) e 0)) as [o s1] eqn:ER.
      cbn [fst snd] in R1, R2. destruct o as [t|x|u|]; try discriminate H.
      symmetry in R1. specialize (R2 _ R1). subst s1. unfold sret at 1 in H. cbv iota beta in H. unfold sbind in H.
      destruct (read_revs_loop z passes fuel (mkIs data (pos + 10 + sz) e 0)) as [o2 s2] eqn:EL.
      destruct o2 as [ts2|x|u|]; try discriminate H. unfold sret in H. cbn [i_revision] in H. injection H as <- <-.
      destruct (IH _ _ _ HL EL) as (l & ts & L1 & L2 & L3 & L4 & -> & L5).
      exists (mkHead pos v r f sz :: l), (t :: ts). cbn [tags_from tags_end hd_at hd_version hd_rev hd_flags hd_size combine map fst snd].
      repeat split; auto. constructor; [exact (proj1 (read_version_fresh _ _ _ _ _ _ ER))|exact L4].
    + exfalso. destruct (read_version z passes (mkInfo v r f sz) (mkIs data (pos + 10) e 0)) as [o s1] eqn:ER.
      destruct o as [t|x|u|]; try discriminate H.
      exact (read_version_short _ _ _ _ _ _ _ _ _ _ _ HL HFit ER).
  - rewrite E in H. unfold sret in H. injection H as <- <-. exists [], []. cbn [tags_from tags_end]. repeat split; auto.
Qed.
Lemma sound_duration : sound get_mp3_duration.
Proof.
  intros s H. unfold get_mp3_duration. match goal with |- context [?m s] => assert (Q : sound m); [|exact (Q s H)] end.
  sound_by ltac:(first [apply sound_find_sync | apply sound_reread | apply sound_timed]).
Qed.
Lemma track_state md5 data pos e t s' : track_data md5 (mkIs data pos e 0) = (Ok t, s') -> exists p, s' = mkIs data p e 0.
Proof.
  rewrite track_eq. intros E. apply sbind_inv in E as (d & s1 & E1 & E). apply sbind_inv in E as ([] & s2 & E2 & E).
  apply sbind_inv in E as ([] & s3 & E3 & E). apply sbind_inv in E as ([] & s4 & E4 & E). unfold sret in E. apply (f_equal snd) in E. cbn [snd] in E. subst s4.
  assert (D1 : s_data s1 = data /\ s_state s1 < 8).
  { pose proof (sound_duration (mkIs data pos all_bits 0) eq_refl) as (D & Q). unfold attempt in E1. destruct (get_mp3_duration _) as (r, s0). cbn [snd s_data] in D, Q.
    destruct r; try discriminate E1; apply (f_equal snd) in E1; cbn [snd] in E1; subst s0; auto. }
  destruct D1 as (D1 & Q1). pose proof (sound_seekg (v1_start data) s1 Q1) as (D2 & _). rewrite E2 in D2. cbn [snd] in D2.
  unfold sclear in E3. apply (f_equal snd) in E3. cbn [snd] in E3. subst s3. rewrite set_exc_good in E4 by reflexivity. apply (f_equal snd) in E4. cbn [snd s_data s_pos] in E4.
  exists (s_pos s2). now rewrite <- E4, D2, D1.
Qed.
Lemma dump_read_inv z passes md5 data rts tr v1 : dump_read z passes md5 data = Ok (rts, tr, v1) ->
  exists l ts, tags_of z passes data l ts /\ Forall fresh ts /\ rts = map (fun ht => (hd_rev (fst ht), snd ht)) (combine l ts) /\
    track_of md5 data l (tr_size tr) (tr_md5 tr) /\ v1_of data v1.
Proof.
  unfold dump_read. intros E. destruct ((do v2 <- _;; _) (open_file data goodbit)) as (r, s) eqn:R. cbn [fst] in E. subst r.
  apply sbind_inv in R as (a & s1 & R1 & R). apply sbind_inv in R as (b & s2 & R2 & R). apply sbind_inv in R as (c & s3 & R3 & R). apply sret_inv in R. injection R as -> -> ->.
  unfold read_revs in R1. apply revs_inv in R1; [|lia]. destruct R1 as (l & ts & TF & TE & GR & FR & -> & ->). exists l, ts.
  split; [split; [exact TF|split; [exact TE|exact GR]]|]. split; [exact FR|]. split; [reflexivity|]. split.
  - split; [exact (proj1 (track_any _ _ _ _ _ _ R2))|]. intros A C. exact (proj1 (track_between _ _ _ _ _ _ A C R2)).
  - destruct (track_state _ _ _ _ _ _ R2) as (p & ->). intros p' e'. rewrite (process_any data p' e' p goodbit), R3. reflexivity.
Qed.
Lemma tags_of_fun z passes data l ts l' ts' : tags_of z passes data l ts -> tags_of z passes data l' ts' -> l = l' /\ ts = ts'.
Proof.
  intros (A & _ & G) (A' & _ & G'). assert (l = l') by (eapply tags_from_fun; eassumption). subst l'. split; [reflexivity|].
  clear A A'. revert ts' G'. induction G as [|h t l ts E G IH]; intros ts' G'; inversion G' as [|? ? ? ? E' G2]; subst; [reflexivity|].
  rewrite E in E'. apply Ok_inj in E'. subst. f_equal. now apply IH.
Qed.

(** ** A file *)
Lemma tags_told d z w l ss : Forall (fun rt => fresh (snd rt)) l -> Forall2 (fun rt b => dump_tag d z w rt = (b, Ok tt)) l ss ->
  exists tls, Forall2 (fun rt => tag_lines (sin d) z (w_ic w) (fst rt) (snd rt)) l tls /\ concat ss = unlines (concat tls).
Proof.
  intros F H. revert F. induction H as [|rt b l ss E H IH]; intros F; [exists []; split; [constructor|reflexivity]|].
  inversion F as [|? ? F1 F2]; subst. destruct (IH F2) as (tls & T & Q). apply dump_tag_told in E as (ls & L & ->); [|exact F1].
  exists (ls :: tls). cbn [concat]. split; [constructor; assumption|]. now rewrite unlines_app, Q.
Qed.
Lemma fresh_pairs (l : list head) ts : Forall fresh ts -> Forall (fun rt : N * anytag => fresh (snd rt)) (map (fun ht => (hd_rev (fst ht), snd ht)) (combine l ts)).
Proof.
  intros F. rewrite Forall_map. apply Forall_forall. intros (h, t) I1. cbn [snd]. rewrite Forall_forall in F. apply F. eapply in_combine_r. exact I1.
Qed.
Lemma dump_file_told d z passes md5 w p f s : dump_file d z passes md5 w p f = (s, Ok true) ->
  exists ls, file_lines (sin d) (ds_expand d) (ds_v1enc d) z passes md5 (w_ic w) (p_v2 (all_parts p)) (p_track (all_parts p)) (p_v1 (all_parts p)) f ls /\ s = unlines ls.
Proof.
  unfold dump_file. intros E. destruct (dump_read z passes md5 (df_data f)) as [((rts, tr), v1)|x|u|] eqn:R; try discriminate E.
  apply dump_read_inv in R as (l & ts & T & F & -> & TR & V). destruct (dump_parts _ _ _ _ _ _ _ _) as (s0, o) eqn:D.
  assert (Q : s0 = s /\ o = Ok tt) by (destruct o as [[]|x|u|]; split; congruence). destruct Q as (-> & ->). clear E.
  unfold dump_parts in D. apply pthen_ok_inv in D as (s1 & r1 & D1 & D & ->). apply put_inv in D1. subst s1.
  apply pthen_ok_inv in D as (s2 & r2 & D2 & D & ->). apply pthen_ok_inv in D as (s3 & r3 & D3 & D & ->). apply pthen_ok_inv in D as (s4 & r4 & D4 & D & ->). apply put_inv in D. subst r4.
  assert (Q2 : exists tl, (if p_v2 (all_parts p) then exists tls, Forall2 (fun ht => tag_lines (sin d) z (w_ic w) (hd_rev (fst ht)) (snd ht)) (combine l ts) tls /\ tl = concat tls else tl = []) /\ s2 = unlines tl).
  { destruct (p_v2 (all_parts p)); [|exists []; split; [reflexivity|now apply put_inv in D2]]. apply pall_ok_inv in D2 as (ss & FF & ->).
    apply tags_told in FF as (tls & FL & ->); [|now apply fresh_pairs]. apply Forall2_map_l in FL. cbn [fst snd] in FL. exists (concat tls). split; [|reflexivity]. exists tls. split; [exact FL|reflexivity]. }
  assert (Q3 : exists trl, (if p_track (all_parts p) then track_lines (sin d) (tr_size tr) (tr_md5 tr) trl else trl = []) /\ s3 = unlines trl).
  { destruct (p_track (all_parts p)); apply put_inv in D3; subst s3; [apply dump_track_told|exists []; split; reflexivity]. }
  assert (Q4 : exists v1l, match v1 with Some t => if p_v1 (all_parts p) then v1_lines (sin d) (ds_expand d) (w_ic w) (ds_v1enc d) t v1l else v1l = [] | None => v1l = [] end /\ s4 = unlines v1l).
  { destruct v1 as [t|]; [destruct (p_v1 (all_parts p))|]; [apply dump_v1_told; exact D4| |]; (exists []; split; [reflexivity|now apply put_inv in D4]). }
  destruct Q2 as (tl & Q2 & ->), Q3 as (trl & Q3 & ->), Q4 as (v1l & Q4 & ->). eexists. split.
  - exists l, ts, v1, (tr_size tr), (tr_md5 tr), tl, trl, v1l. split; [exact T|]. split; [exact TR|]. split; [exact V|]. split; [exact Q2|]. split; [exact Q3|]. split; [exact Q4|]. reflexivity.
  - rewrite !unlines_app. pieces.
Qed.
Lemma tags_can d z w l tls : Forall (fun rt => fresh (snd rt)) l -> Forall2 (fun rt => tag_lines (sin d) z (w_ic w) (fst rt) (snd rt)) l tls ->
  snd (pall (map (dump_tag d z w) l)) = Ok tt.
Proof.
  intros F H. revert F. induction H as [|rt ls l tls E H IH]; intros F; [reflexivity|]. inversion F as [|? ? F1 F2]; subst.
  change (snd (pthen (dump_tag d z w rt) (pall (map (dump_tag d z w) l))) = Ok tt). apply pthen_snd; [eapply dump_tag_can; eassumption|auto].
Qed.
Lemma dump_file_can d z passes md5 w p f r ls : dump_read z passes md5 (df_data f) = Ok r ->
  file_lines (sin d) (ds_expand d) (ds_v1enc d) z passes md5 (w_ic w) (p_v2 (all_parts p)) (p_track (all_parts p)) (p_v1 (all_parts p)) f ls ->
  exists s, dump_file d z passes md5 w p f = (s, Ok true).
Proof.
  intros R (l & ts & o & size & sum & tl & trl & v1l & T & _ & V & TL & _ & VL & _). destruct r as ((rts, tr), v1). unfold dump_file. rewrite R.
  apply dump_read_inv in R as (l' & ts' & T' & F & -> & _ & V'). destruct (tags_of_fun _ _ _ _ _ _ _ T T') as (<- & <-).
  assert (o = v1) by (specialize (V 0 0); specialize (V' 0 0); rewrite V in V'; now apply Ok_inj in V'). subst o.
  assert (Q : snd (dump_parts d z w (all_parts p) f (map (fun ht => (hd_rev (fst ht), snd ht)) (combine l ts)) tr v1) = Ok tt).
  { unfold dump_parts. apply pthen_snd; [reflexivity|]. apply pthen_snd.
    { destruct (p_v2 (all_parts p)); [|reflexivity]. destruct TL as (tls & FL & _). apply tags_can with tls; [now apply fresh_pairs|]. apply Forall2_map_l. exact FL. }
    apply pthen_snd; [destruct (p_track _); reflexivity|]. apply pthen_snd; [|reflexivity].
    destruct v1 as [t|]; [|reflexivity]. destruct (p_v1 (all_parts p)); [|reflexivity]. eapply dump_v1_can. exact VL. }
  destruct (dump_parts _ _ _ _ _ _ _ _) as (s, x). cbn [snd] in Q. subst x. eauto.
Qed.

(** ** A file that stops half-way *)
Lemma pall_stop {A} (g : A -> pr) pre x post ss b (e : outcome unit) : Forall2 (fun a s => g a = (s, Ok tt)) pre ss -> g x = (b, e) -> e <> Ok tt ->
  pall (map g (pre ++ x :: post)) = (concat ss ++ b, e).
Proof.
  intros H E NE. induction H as [|a s pre ss G H IH].
  - change (pthen (g x) (pall (map g post)) = (b, e)). rewrite E. unfold pthen. cbn [snd]. destruct e as [[]|y|u|]; [now elim NE|reflexivity..].
  - change (pthen (g a) (pall (map g (pre ++ x :: post))) = (concat (s :: ss) ++ b, e)). rewrite G, IH. unfold pthen. cbn [fst snd concat]. now rewrite <- app_assoc.
Qed.
Lemma pair_snd (p : pr) : snd p = Ok tt -> p = (fst p, Ok tt).
Proof. destruct p as (a, b). cbn. now intros ->. Qed.
Lemma all_fine {A} (g : A -> pr) (Q : A -> list bytes -> Prop) l :
  (forall a, In a l -> snd (g a) = Ok tt) -> (forall a s, In a l -> g a = (s, Ok tt) -> exists ls, Q a ls /\ s = unlines ls) ->
  exists ss lss, Forall2 (fun a s => g a = (s, Ok tt)) l ss /\ Forall2 Q l lss /\ concat ss = unlines (concat lss).
Proof.
  induction l as [|a l IH]; intros H K; [exists [], []; split; [constructor|split; [constructor|reflexivity]]|].
  destruct IH as (ss & lss & I1 & I2 & I3); [intros; apply H; now right|intros; apply K; [now right|assumption]|].
  pose proof (pair_snd _ (H a (or_introl eq_refl))) as E. destruct (K a _ (or_introl eq_refl) E) as (ls & Q1 & Q2).
  exists (fst (g a) :: ss), (ls :: lss). split; [constructor; assumption|]. split; [constructor; assumption|]. cbn [concat]. now rewrite unlines_app, Q2, I3.
Qed.
Lemma tag_stops d z w rev t c0 c c1 b e n t' : fresh t -> any_size z t false = Ok (n, t') -> texts_read (w_ic w) t ->
  any_frames t = c0 ++ c :: c1 -> (forall x, In x c0 -> exists ls, frame_lines (sin d) (w_ic w) (any_version t) (c_frame x) ls) ->
  print_any_frame d w (any_version t) (c_frame c) = (b, e) -> e <> Ok tt ->
  exists sum fls, summary_lines (sin d) z (w_ic w) rev t sum /\ Forall2 (fun x => frame_lines (sin d) (w_ic w) (any_version t) (c_frame x)) c0 fls /\
    dump_tag d z w (rev, t) = (unlines (sum ++ concat fls) ++ b, e).
Proof.
  intros F SZ TR AF BF E NE. pose proof (pair_snd _ (summary_can d z w rev t n t' F SZ TR)) as S1. destruct (summary_told _ _ _ _ _ _ F S1) as (sum & S2 & S3).
  destruct (all_fine (fun x => print_any_frame d w (any_version t) (c_frame x)) (fun x => frame_lines (sin d) (w_ic w) (any_version t) (c_frame x)) c0) as (ss & fls & A1 & A2 & A3).
  { intros x I1. destruct (BF x I1) as (ls & L). eapply dump_frame_can. exact L. }
  { intros x s I1 X. exact (dump_frame_told _ _ _ _ _ X). }
  exists sum, fls. split; [exact S2|]. split; [exact A2|]. unfold dump_tag. cbn [fst snd]. rewrite S1, AF, (pall_stop _ _ _ _ _ _ _ A1 E NE), S3, A3.
  unfold pthen. cbn [fst snd]. rewrite unlines_app. destruct e as [[]|y|u|]; [now elim NE|..]; cbn [fst snd]; now rewrite <- app_assoc.
Qed.
Definition reported (e : outcome unit) : outcome bool :=
  match e with Ok _ => Ok true | Throw _ => Ok false | UB u => UB u | NonTerm => NonTerm end.
Lemma file_stops d z passes md5 w p f r l ts pre h t post f0 fr f1 b e n t' :
  dump_read z passes md5 (df_data f) = Ok r -> tags_of z passes (df_data f) l ts -> p_v2 (all_parts p) = true ->
  combine l ts = pre ++ (h, t) :: post -> (forall ht, In ht pre -> exists ls, tag_lines (sin d) z (w_ic w) (hd_rev (fst ht)) (snd ht) ls) ->
  any_size z t false = Ok (n, t') -> texts_read (w_ic w) t ->
  shown t = f0 ++ fr :: f1 -> (forall x, In x f0 -> exists ls, frame_lines (sin d) (w_ic w) (any_version t) x ls) ->
  print_any_frame d w (any_version t) fr = (b, e) -> e <> Ok tt ->
  exists tls sum fls, Forall2 (fun ht => tag_lines (sin d) z (w_ic w) (hd_rev (fst ht)) (snd ht)) pre tls /\
    summary_lines (sin d) z (w_ic w) (hd_rev h) t sum /\ Forall2 (frame_lines (sin d) (w_ic w) (any_version t)) f0 fls /\
    dump_file d z passes md5 w p f = (unlines ([quoted_path (df_path f) ++ B ":"; B "Last Modified: " ++ df_time f] ++ concat tls ++ sum ++ concat fls) ++ b, reported e).
Proof.
  intros R T P C PRE SZ TR SH BF E NE. destruct r as ((rts, tr), v1). unfold dump_file. rewrite R.
  apply dump_read_inv in R as (l' & ts' & T' & F & -> & _ & _). destruct (tags_of_fun _ _ _ _ _ _ _ T T') as (<- & <-).
  assert (FP : forall ht, In ht (combine l ts) -> fresh (snd ht)).
  { intros (x, y) I1. cbn [snd]. rewrite Forall_forall in F. apply F. eapply in_combine_r. exact I1. }
  rewrite C in FP |- *. assert (FT : fresh t) by (apply (FP (h, t)), in_or_app; right; now left).
  unfold shown in SH. apply map_eq_app in SH as (c0 & cr & AF & <- & SH). destruct cr as [|c c1]; [discriminate SH|]. cbn [map] in SH. injection SH as <- <-.
  destruct (tag_stops d z w (hd_rev h) t c0 c c1 b e n t' FT SZ TR AF) as (sum & fls & S1 & S2 & S3); [|exact E|exact NE|].
  { intros x I1. apply BF, in_map. exact I1. }
  destruct (all_fine (fun ht : head * anytag => dump_tag d z w (hd_rev (fst ht), snd ht)) (fun ht => tag_lines (sin d) z (w_ic w) (hd_rev (fst ht)) (snd ht)) pre) as (ss & tls & A1 & A2 & A3).
  { intros x I1. destruct (PRE x I1) as (ls & L). eapply dump_tag_can; [|exact L]. cbn [snd]. apply FP, in_or_app. now left. }
  { intros x s I1 X. apply dump_tag_told in X; [exact X|]. cbn [snd]. apply FP, in_or_app. now left. }
  exists tls, sum, fls. split; [exact A2|]. split; [exact S1|]. split; [apply Forall2_map_l; exact S2|].
  unfold dump_parts. rewrite P. rewrite map_map, (pall_stop (fun ht : head * anytag => dump_tag d z w (hd_rev (fst ht), snd ht)) _ (h, t) _ _ _ _ A1 S3 NE), A3.
  unfold pthen. cbn [fst snd put]. rewrite !unlines_app. unfold reported.
  destruct e as [[]|y|u|]; [now elim NE|..]; cbn [fst snd]; f_equal; pieces.
Qed.

(** The frames that stop it. *)
Lemma private_stops d w f : match f_body f with BCloud _ | BPriv _ => True | _ => False end -> print_any_frame d w V24 f = ([], Throw OutOfRange).
Proof. intros H. unfold print_any_frame. destruct (f_body f); try destruct H; reflexivity. Qed.
Lemma empty_stops d w v f p o : v <> V24 -> f_body f = BPriv p -> pr_contents p = [] -> told_ascii (w_ic w) (pr_email p) o ->
  print_any_frame d w v f = (sin d ++ f_id f ++ B " (" ++ o ++ B "): 0 bytes beginning with:" ++ [10], UB OutOfBounds).
Proof.
  intros V BP E O. apply ascii_can in O. assert (Q : print_any_frame d w v f = dump_frame d w v f) by (unfold print_any_frame; destruct v, (f_body f); congruence).
  rewrite Q. unfold dump_frame. rewrite BP, O, E. unfold pthen. cbn [pput bind put fst snd takeN pprint_binary len length]. now rewrite app_nil_r.
Qed.
Lemma long_stops d w v f c : f_body f = BCount c -> 4 < len c -> print_any_frame d w v f = (sin d ++ f_id f ++ B ": ", Throw DomainError).
Proof.
  intros BC L. unfold print_any_frame, dump_frame. rewrite BC. assert (C : counter_value c = Throw DomainError).
  { destruct c as [|? [|? [|? [|? [|? c]]]]]; try (exfalso; revert L; vm_compute; intuition discriminate). reflexivity. }
  rewrite C. destruct v; unfold pthen; cbn [pput bind put fst snd]; now rewrite app_nil_r.
Qed.
Lemma none_stops d w v f : f_body f = BCount [] -> print_any_frame d w v f = (sin d ++ f_id f ++ B ": ", UB Uninitialised).
Proof.
  intros BC. unfold print_any_frame, dump_frame. rewrite BC. cbn [counter_value]. destruct v; unfold pthen; cbn [pput bind put fst snd]; now rewrite app_nil_r.
Qed.
Lemma stopping_frame d w v f b o : stopping (sin d) (w_ic w) v f b o -> exists e, print_any_frame d w v f = (b, e) /\ e <> Ok tt /\ reported e = match o with None => Ok false | Some u => UB u end.
Proof.
  intros H. destruct H as [E H|c E L|E|p o V E Q O].
  - subst v. rewrite private_stops by exact H. eexists. split; [reflexivity|]. split; [discriminate|reflexivity].
  - rewrite (long_stops d w v f c) by assumption. eexists. split; [reflexivity|]. split; [discriminate|reflexivity].
  - rewrite (none_stops d w v f) by assumption. eexists. split; [reflexivity|]. split; [discriminate|reflexivity].
  - rewrite (empty_stops d w v f p o) by assumption. eexists. split; [reflexivity|]. split; [discriminate|reflexivity].
Qed.
Lemma dump_stopped d z passes md5 w p f r l ts pre h t post f0 fr f1 b o n t' :
  dump_read z passes md5 (df_data f) = Ok r -> tags_of z passes (df_data f) l ts -> p_v2 (all_parts p) = true ->
  combine l ts = pre ++ (h, t) :: post -> (forall ht, In ht pre -> exists ls, tag_lines (sin d) z (w_ic w) (hd_rev (fst ht)) (snd ht) ls) ->
  any_size z t false = Ok (n, t') -> texts_read (w_ic w) t ->
  shown t = f0 ++ fr :: f1 -> (forall x, In x f0 -> exists ls, frame_lines (sin d) (w_ic w) (any_version t) x ls) ->
  stopping (sin d) (w_ic w) (any_version t) fr b o ->
  exists tls sum fls, Forall2 (fun ht => tag_lines (sin d) z (w_ic w) (hd_rev (fst ht)) (snd ht)) pre tls /\
    summary_lines (sin d) z (w_ic w) (hd_rev h) t sum /\ Forall2 (frame_lines (sin d) (w_ic w) (any_version t)) f0 fls /\
    dump_file d z passes md5 w p f = (unlines ([quoted_path (df_path f) ++ B ":"; B "Last Modified: " ++ df_time f] ++ concat tls ++ sum ++ concat fls) ++ b,
                                      match o with None => Ok false | Some u => UB u end).
Proof.
  intros R T P C PRE SZ TR SH BF ST. apply stopping_frame in ST as (e & E & NE & <-). eapply file_stops; eassumption.
Qed.
Lemma never_private d z passes md5 w p f r l ts t fr s : dump_read z passes md5 (df_data f) = Ok r -> tags_of z passes (df_data f) l ts -> p_v2 (all_parts p) = true ->
  In t ts -> any_version t = V24 -> In fr (shown t) -> match f_body fr with BCloud _ | BPriv _ => True | _ => False end ->
  dump_file d z passes md5 w p f <> (s, Ok true).
Proof.
  intros R T P I1 V I2 B E. apply dump_file_told in E as (ls & (l' & ts' & o & ? & ? & tl & ? & ? & T' & _ & _ & TL & _) & _).
  destruct (tags_of_fun _ _ _ _ _ _ _ T T') as (<- & <-). rewrite P in TL. destruct TL as (tls & FL & _).
  assert (C : exists h, In (h, t) (combine l ts)).
  { destruct T as (_ & _ & G). clear - G I1. induction G as [|h x l ts _ G IH]; [destruct I1|]. destruct I1 as [->|I1]; [exists h; now left|]. destruct (IH I1) as (h' & J). exists h'. now right. }
  destruct C as (h & C). assert (Q : exists tll, tag_lines (sin d) z (w_ic w) (hd_rev h) t tll).
  { clear - FL C. induction FL as [|a y m ls H FL IH]; [destruct C|]. destruct C as [->|C]; [exists y; exact H|auto]. }
  destruct Q as (tll & sum & fls & p0 & _ & FF & _). assert (Q : exists x, frame_lines (sin d) (w_ic w) (any_version t) fr x).
  { clear - FF I2. induction FF as [|a y m ls H FF IH]; [destruct I2|]. destruct I2 as [->|I2]; [exists y; exact H|auto]. }
  destruct Q as (lq & Q). rewrite V in Q. destruct Q; try congruence; try (rewrite H in B; exact B). destruct H as (y & BT & _). rewrite BT in B. exact B.
Qed.

(** ** Texts with a line end *)
Lemma forged d w v f f1 f2 a b : reads (w_ic w) v E_UTF_8 f (a ++ [10] ++ sin d ++ f_id f2 ++ B ": " ++ b) ->
  reads (w_ic w) v E_UTF_8 f1 a -> f_id f1 = f_id f -> reads (w_ic w) v E_UTF_8 f2 b ->
  print_any_frame d w v f = pall [print_any_frame d w v f1; print_any_frame d w v f2].
Proof.
  intros (x & BX & X) (y & BY & Y) ID (u & BU & U).
  assert (Q : forall g k s, f_body g = BText k -> text_as_str v (w_ic w) k E_UTF_8 NoFail None = Ok s -> print_any_frame d w v g = (sin d ++ f_id g ++ B ": " ++ s ++ [10], Ok tt)).
  { intros g k s BG K. assert (D : print_any_frame d w v g = dump_frame d w v g) by (unfold print_any_frame; rewrite BG; destruct v; reflexivity).
    rewrite D. unfold dump_frame. rewrite BG, K. unfold pthen. cbn [pput put fst snd]. unfold line_end. now rewrite <- !app_assoc. }
  rewrite (Q _ _ _ BX X), (Q _ _ _ BY Y), (Q _ _ _ BU U), ID. unfold pall, fold_right, pthen. cbn [put fst snd]. f_equal. now rewrite <- !app_assoc, app_nil_r.
Qed.

(** ** Runs *)
Lemma files_run one matches fs : (forall f, In (Some f) fs -> matches (df_path f) = true -> exists b, snd (one f) = Ok b) ->
  dump_files one matches fs = (flat_map (fun o => match o with Some f => if matches (df_path f) then fst (one f) else [] | None => [] end) fs, Ok tt).
Proof.
  induction fs as [|[f|] fs IH]; intros H; [reflexivity|..]; cbn [dump_files flat_map].
  - assert (IH' := IH (fun g I1 => H g (or_intror I1))). destruct (matches (df_path f)) eqn:M; [|exact IH'].
    destruct (H f (or_introl eq_refl) M) as (b & Q). destruct (one f) as (s, o). cbn [snd] in Q. subst o. rewrite IH'. reflexivity.
  - apply IH. intros g I1. apply H. now right.
Qed.
Lemma args_step one matches a r : a <> DMissing -> dump_args one matches (a :: r) = pthen (dump_files one matches (arg_files a)) (dump_args one matches r).
Proof. intros H. destruct a; [now elim H|reflexivity..]. Qed.
Lemma args_run one matches args : (forall a, In a args -> a <> DMissing) ->
  (forall a f, In a args -> In (Some f) (arg_files a) -> matches (df_path f) = true -> exists b, snd (one f) = Ok b) ->
  dump_args one matches args = (flat_map (fun o => match o with Some f => if matches (df_path f) then fst (one f) else [] | None => [] end) (flat_map arg_files args), Ok tt).
Proof.
  induction args as [|a args IH]; intros N1 H; [reflexivity|]. rewrite args_step by (apply N1; now left).
  rewrite files_run, IH by (intros; eauto using in_eq, in_cons). unfold pthen. cbn [fst snd flat_map]. now rewrite flat_map_app.
Qed.
Lemma args_missing one matches pre post : (forall a, In a pre -> a <> DMissing) ->
  (forall a f, In a pre -> In (Some f) (arg_files a) -> matches (df_path f) = true -> exists b, snd (one f) = Ok b) ->
  dump_args one matches (pre ++ DMissing :: post) = (fst (dump_args one matches pre), Throw RuntimeError).
Proof.
  intros N1 H. induction pre as [|a pre IH]; [reflexivity|]. cbn [app]. rewrite !args_step by (apply N1; now left).
  rewrite IH by (intros; eauto using in_eq, in_cons). rewrite files_run by (intros; eauto using in_eq). reflexivity.
Qed.
