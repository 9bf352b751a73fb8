(** * Proofs about printing tags and frames. *)
From Coq Require Import Lia.
From Verif Require Import Base M_Charset M_Payload M_Frame M_Lang M_Cloud M_Tagset M_Popm M_Scheme M_Scheme2 M_Display S_Json S_Scheme S_Tagset S_Display L_Fs L_Scheme L_Scheme2.
#[local] Open Scope N_scope.

Lemma hex_digit_value d : d < 16 -> hex_value (hex_digit d) = Some d.
Proof.
  intros H. unfold hex_digit, hex_value. destruct (N.ltb_spec d 10).
  - rewrite (proj2 (N.leb_le 48 (48 + d))), (proj2 (N.leb_le (48 + d) 57)) by lia. cbn [andb]. f_equal. lia.
  - rewrite (proj2 (N.leb_gt (87 + d) 57)), andb_false_r by lia.
    rewrite (proj2 (N.leb_le 97 (87 + d))), (proj2 (N.leb_le (87 + d) 102)) by lia. cbn [andb]. f_equal. lia.
Qed.

Definition letter (x : N) : N := if (31 <? x) && (x <? 127) then x else 46.

Lemma skipn_nth {A} (l : list A) i x : nth_error l i = Some x -> skipn i l = x :: skipn (S i) l.
Proof.
  revert i. induction l as [|a r IH]; intros [|i] E; try discriminate.
  - injection E as ->. reflexivity.
  - cbn [skipn]. rewrite (IH i E). reflexivity.
Qed.

Lemma hex_loop_ok bv : forall n i acc, (i + n <= length bv)%nat ->
  hex_loop n i bv acc = GOk (acc ++ map (fun x => hex2 x ++ B " ") (firstn n (skipn i bv))).
Proof.
  induction n as [|n IH]; intros i acc H; cbn [hex_loop firstn map].
  - now rewrite app_nil_r.
  - destruct (nth_error bv i) as [x|] eqn:E; [|apply nth_error_None in E; lia].
    rewrite IH by lia. rewrite (skipn_nth _ _ _ E). cbn [firstn map]. now rewrite <- app_assoc.
Qed.
Lemma ascii_loop_ok bv : forall n i acc, (i + n <= length bv)%nat ->
  ascii_loop n i bv acc = GOk (acc ++ map (fun x => [letter x]) (firstn n (skipn i bv))).
Proof.
  induction n as [|n IH]; intros i acc H; cbn [ascii_loop firstn map].
  - now rewrite app_nil_r.
  - destruct (nth_error bv i) as [x|] eqn:E; [|apply nth_error_None in E; lia].
    rewrite IH by lia. rewrite (skipn_nth _ _ _ E). cbn [firstn map]. now rewrite <- app_assoc.
Qed.

Lemma firstn_min {A} (l : list A) n : firstn (Nat.min (length l) n) l = firstn n l.
Proof.
  destruct (Nat.le_ge_cases (length l) n).
  - rewrite Nat.min_l by assumption. rewrite !firstn_all2; auto.
  - now rewrite Nat.min_r by assumption.
Qed.

Definition dump_text (l : bytes) : bytes :=
  B "{" ++ concat (map (fun x => hex2 x ++ B " ") l) ++ B " <" ++ concat (map (fun x => [letter x]) l) ++ B ">}".
Lemma pp_text bv : pp_bytevector (SBytes bv) = GOk (dump_text (firstn 8 bv)).
Proof.
  unfold pp_bytevector. rewrite hex_loop_ok by (cbn [Nat.add]; apply Nat.le_min_l).
  cbn [gbind]. rewrite ascii_loop_ok by (cbn [Nat.add]; apply Nat.le_min_l). cbn [gbind skipn].
  rewrite firstn_min. reflexivity.
Qed.

Lemma letter_ok x : 32 <= x <= 126 /\ letter x = x \/ ~ (32 <= x <= 126) /\ letter x = 46.
Proof.
  unfold letter. destruct (N.ltb_spec 31 x), (N.ltb_spec x 127); cbn [andb]; [left|right|right|right]; (split; [lia|reflexivity]).
Qed.
Lemma dump_ok l : Forall (fun x => x < 256) l -> dump_of l (dump_text l).
Proof.
  intros H. exists (concat (map (fun x => hex2 x ++ B " ") l)), (concat (map (fun x => [letter x]) l)).
  split; [|reflexivity]. induction H as [|x r Hx _ IH]; [constructor|].
  cbn [map concat]. change (dumped (x :: r) (hex_digit (x / 16) :: hex_digit (x mod 16) :: 32 :: concat (map (fun x => hex2 x ++ B " ") r))
    (letter x :: concat (map (fun x => [letter x]) r))).
  eapply dumped_cons with (hi := x / 16) (lo := x mod 16).
  - apply hex_digit_value. apply N.div_lt_upper_bound; [discriminate|]. exact Hx.
  - apply hex_digit_value. apply N.mod_lt. discriminate.
  - apply N.div_mod. discriminate.
  - apply letter_ok.
  - exact IH.
Qed.

(** What is printed determines the data. *)
Lemma dumped_inj l1 hs1 cs1 : dumped l1 hs1 cs1 -> forall l2 hs2 cs2 t1 t2, dumped l2 hs2 cs2 ->
  hs1 ++ 32 :: t1 = hs2 ++ 32 :: t2 -> l1 = l2.
Proof.
  induction 1 as [|x r h l hi lo hs c cs Hh Hl Ex Ec D IH]; intros l2 hs2 cs2 t1 t2 D2 E;
    destruct D2 as [|x' r' h' l' hi' lo' hs' c' cs' Hh' Hl' Ex' Ec' D']; cbn [List.app] in E.
  - reflexivity.
  - injection E as <- _. discriminate Hh'.
  - injection E as -> _. discriminate Hh.
  - injection E as -> -> E. rewrite Hh in Hh'. rewrite Hl in Hl'. injection Hh' as ->. injection Hl' as ->.
    subst. f_equal. eapply IH; eauto.
Qed.
Lemma dump_of_inj l1 l2 t : dump_of l1 t -> dump_of l2 t -> l1 = l2.
Proof.
  intros (h1 & c1 & D1 & ->) (h2 & c2 & D2 & E). injection E as E.
  eapply dumped_inj; [exact D1|exact D2|exact E].
Qed.

Lemma dumped_printable l hs cs : dumped l hs cs -> Forall (fun c => 32 <= c <= 126) hs /\ Forall (fun c => 32 <= c <= 126) cs /\
  length hs = (3 * length l)%nat /\ length cs = length l.
Proof.
  assert (V : forall h v, hex_value h = Some v -> 32 <= h <= 126).
  { intros h v E. unfold hex_value in E.
    destruct ((48 <=? h) && (h <=? 57)) eqn:A; [apply andb_prop in A; destruct A as [A A']; apply N.leb_le in A, A'; lia|].
    destruct ((97 <=? h) && (h <=? 102)) eqn:A1; [apply andb_prop in A1; destruct A1 as [A1 A2]; apply N.leb_le in A1, A2; lia|].
    destruct ((65 <=? h) && (h <=? 70)) eqn:A3; [apply andb_prop in A3; destruct A3 as [A3 A4]; apply N.leb_le in A3, A4; lia|discriminate]. }
  induction 1 as [|x r h l hi lo hs c cs Hh Hl Ex Ec D (A & A' & L1 & L2)]; [repeat split; constructor|].
  split; [|split; [|split]].
  - constructor; [eapply V; eauto|]. constructor; [eapply V; eauto|]. constructor; [lia|exact A].
  - constructor; [lia|exact A'].
  - cbn [length]. lia.
  - cbn [length]. lia.
Qed.

(** ** Tags *)
Lemma full_object x : full_frame x -> frame_object x.
Proof. destruct 1; eexists _, _, _; (split; [reflexivity|]); cbn; tauto. Qed.

Lemma picked_first f fs l : picked f fs l ->
  match l with
  | [] => Forall (fun x => ~ named f x) fs
  | x :: _ => exists pre post, fs = pre ++ x :: post /\ Forall (fun y => ~ named f y) pre /\ named f x
  end.
Proof.
  induction 1 as [|x fs l N P IH|x fs l N P IH].
  - constructor.
  - exists [], fs. repeat split; auto.
  - destruct l as [|y l]; [constructor; auto|]. destruct IH as (pre & post & -> & F & Ny).
    exists (x :: pre), post. repeat split; auto.
Qed.

Lemma full_texted f x : full_frame x -> named f x -> f = B "artist-frame" \/ f = B "title-frame" ->
  exists s, text_slot x = GOk (SStr s) /\ holds_text x s.
Proof.
  intros F (c & rest & E) H.
  destruct F as [s a b c' d t|s a b c' d l dsc t|s a b c' d dsc t|s a b c' d n Na Nt|s a b c' d e r n Na Nt|s a b c' d o t Na Nt|s a b c' d i t Na Nt];
    injection E as _ -> _; try (destruct H; subst; contradiction).
  - exists t. split; [reflexivity|]. exists (SSym f), a, b, c', d. left. reflexivity.
  - exists t. split; [reflexivity|]. exists (SSym f), a, b, c', d. right. right. exists (SStr l), (SStr dsc). reflexivity.
  - exists t. split; [reflexivity|]. exists (SSym f), a, b, c', d. right. left. exists (SStr dsc). reflexivity.
Qed.

Lemma first_named_ok e p fs f : Forall full_frame fs -> f = B "artist-frame" \/ f = B "title-frame" ->
  exists s, first_named (SObj CTag [e; slist fs; p]) f = GOk (SStr s) /\ first_text_of f fs s.
Proof.
  intros F Hf. assert (FO : Forall frame_object fs) by (eapply Forall_impl; [|exact F]; apply full_object).
  destruct (get_loop fs f FO) as (l & Pk & _). unfold first_named.
  rewrite (proj2 (get_frames_l e p fs f l FO) Pk). cbn [gbind].
  pose proof (picked_first f fs l Pk) as PF. destruct l as [|x l]; cbn [slist].
  - exists []. split; [reflexivity|]. left. split; [exact PF|reflexivity].
  - destruct PF as (pre & post & -> & Fp & N). apply Forall_app in F. destruct F as [_ F]. inversion F as [|? ? Fx _]; subst.
    destruct (full_texted f x Fx N Hf) as (s & E & H). exists s. split; [exact E|]. right. exists pre, x, post. auto.
Qed.

(** ** What is read *)
Lemma from_utf8_str G s x : from_utf8 G s = GOk x -> exists t, x = SStr t.
Proof. unfold from_utf8. destruct (g_utf8 G (c_str s)); intros E; [injection E as <-; eauto|discriminate]. Qed.
Lemma from_stringn_str G s x : from_stringn G s = GOk x -> exists t, x = SStr t.
Proof.
  unfold from_stringn. destruct (g_utf8 G s); [intros E; injection E as <-; eauto|].
  destruct (g_escape G s); intros E; [injection E as <-; eauto|discriminate].
Qed.
Lemma from_locale_str G s x : from_locale G s = GOk x -> exists t, x = SStr t.
Proof. unfold from_locale. destruct (g_from_locale G (c_str s)); intros E; [injection E as <-; eauto|discriminate]. Qed.
Lemma flag_slots_four v fl : exists a b c d, flag_slots v fl = [a; b; c; d].
Proof. destruct v; eexists _, _, _, _; reflexivity. Qed.

Ltac told := repeat match goal with
  | H : gbind _ _ = GOk _ |- _ => apply gbind_ok in H; destruct H as (? & ? & H)
  | H : from_utf8 _ _ = GOk _ |- _ => apply from_utf8_str in H; destruct H as (? & ->)
  | H : from_locale _ _ = GOk _ |- _ => apply from_locale_str in H; destruct H as (? & ->)
  end.
Lemma de_entries_list G m : forall lst x, de_entries G m lst = GOk x -> (lst = SNull \/ exists a d, lst = SPair a d) ->
  x = SNull \/ exists a d, x = SPair a d.
Proof.
  induction m as [|[k vs] r IH]; intros lst x E H; cbn [de_entries] in E; [injection E as <-; exact H|].
  apply gbind_ok in E. destruct E as (vals & _ & E). apply gbind_ok in E. destruct E as (key & _ & E).
  eapply IH; [exact E|]. right. eauto.
Qed.
Lemma de_known_full G v k f x : de_known G v k f = GOk x -> full_frame x.
Proof.
  unfold de_known. intros E. destruct k, (M_Frame.f_body f); try discriminate.
  - unfold de_text in E. destruct (symbol_of_id v _); [|discriminate]. told. 
    injection E as <-. unfold init_frame. destruct (flag_slots_four v (M_Frame.f_flags f)) as (a & b' & c & d & ->). constructor.
  - unfold de_comment in E. destruct (M_Payload.co_lang _); [|discriminate]. told.
    injection E as <-. unfold init_frame. destruct (flag_slots_four v (M_Frame.f_flags f)) as (a & b' & c' & d & ->). constructor.
  - unfold de_udt in E. told.
    injection E as <-. unfold init_frame. destruct (flag_slots_four v (M_Frame.f_flags f)) as (a & b' & c' & d & ->). constructor.
  - unfold de_count in E. told.
    injection E as <-. unfold init_frame. destruct (flag_slots_four v (M_Frame.f_flags f)) as (a & b' & c' & d & ->). constructor; discriminate.
  - unfold de_popm in E. told.
    injection E as <-. unfold init_frame. destruct (flag_slots_four v (M_Frame.f_flags f)) as (a & b' & c' & d & ->). constructor; discriminate.
  - unfold de_cloud in E. apply gbind_ok in E. destruct E as (x5 & E5 & E). apply from_utf8_str in E5. destruct E5 as (o & ->).
    apply gbind_ok in E. destruct E as (x6 & E6 & E). apply de_entries_list in E6; [|left; reflexivity].
    injection E as <-. unfold init_frame. destruct (flag_slots_four v (M_Frame.f_flags f)) as (a & b' & c' & d & ->).
    constructor; [discriminate|discriminate|exact E6].
Qed.
Lemma de_unknown_full G z v u c x : de_unknown G z v u c = GOk x -> full_frame x.
Proof.
  unfold de_unknown. intros E. told.
  injection E as <-. unfold init_frame. destruct (flag_slots_four v (M_Frame.f_flags (M_Frame.c_frame c))) as (a & b' & c' & d & ->).
  constructor; discriminate.
Qed.
Lemma de_full G z v u c x : de G z v u c = GOk x -> full_frame x.
Proof.
  unfold de. destruct (assoc_b _ _) as [k|].
  - unfold gcatch. destruct (de_known G v k _) eqn:E; intros H; try discriminate; [injection H as <-|].
    + eapply de_known_full; eauto.
    + eapply de_unknown_full; eauto.
  - apply de_unknown_full.
Qed.
Lemma gmap_full {A X} (f : A -> gres X) (Q : X -> Prop) : (forall a x, f a = GOk x -> Q x) ->
  forall l xs, gmap f l = GOk xs -> Forall Q xs.
Proof.
  intros H. induction l as [|a l IH]; intros xs E; cbn [gmap] in E.
  - injection E as <-. constructor.
  - apply gbind_ok in E. destruct E as (b & E1 & E). apply gbind_ok in E. destruct E as (bs & E2 & E). injection E as <-.
    constructor; [eapply H; eauto|auto].
Qed.
Lemma from_tag_full G z t x : from_tag G z t = GOk x ->
  exists e fs n v u, x = slist [SObj CTag [e; slist fs; SInt n]; v; u] /\ (0 <= n)%Z /\ Forall full_frame fs.
Proof.
  assert (L : forall n, (0 <= low32 n)%Z) by (intros n; apply N2Z.is_nonneg).
  destruct t as [t|t|t]; cbn [from_tag]; intros E; apply gbind_ok in E; destruct E as (fs & E1 & E); injection E as <-;
    (eexists _, fs, _, _, _; split; [reflexivity|]; split; [apply L|]; eapply gmap_full; [|exact E1]; intros; eapply de_full; eauto).
Qed.

Lemma show_int P n : numeral_of n (show P (SInt n)).
Proof.
  cbn [show]. destruct (Z.ltb_spec n 0) as [H|H].
  - destruct (decimal_spec (Z.to_N (- n))) as (V & D & NE). exists (M_Tagset.decimal (Z.to_N (- n))). repeat split; auto.
    + rewrite V. lia.
    + now rewrite (proj2 (Z.ltb_lt n 0) H).
  - destruct (decimal_spec (Z.to_N n)) as (V & D & NE). exists (M_Tagset.decimal (Z.to_N n)). repeat split; auto.
    + rewrite V. lia.
    + now rewrite (proj2 (Z.ltb_ge n 0) H).
Qed.
Lemma full_prints P x : full_frame x -> exists t, display P x = GOk t /\ printed (p_written P) (p_shown P) x t.
Proof.
  destruct 1 as [s a b c d t|s a b c d l dsc t|s a b c d dsc t|s a b c d n _ _|s a b c d e r n _ _|s a b c d o t _ _ H|s a b c d i t _ _];
    cbn [display slot nth_error gbind].
  - eexists. split; [reflexivity|]. constructor.
  - eexists. split; [reflexivity|]. constructor.
  - eexists. split; [reflexivity|]. constructor.
  - eexists. split; [reflexivity|]. constructor. apply show_int.
  - eexists. split; [reflexivity|]. constructor; apply show_int.
  - eexists. split; [reflexivity|]. replace (show P t) with (p_shown P t) by (destruct H as [->|(x & y & ->)]; reflexivity). apply pr_cloud. exact H.
  - rewrite pp_text. cbn [gbind]. eexists. split; [reflexivity|]. constructor. intros H. apply dump_ok.
    unfold is_bytes in H. rewrite Forall_forall in *. intros x Hx. apply H. rewrite <- (firstn_skipn 8 t). apply in_or_app. now left.
Qed.
Lemma tag_prints P e fs p : Forall full_frame fs -> exists a t,
  first_text_of (B "artist-frame") fs a /\ first_text_of (B "title-frame") fs t /\
  display P (SObj CTag [e; slist fs; p]) = GOk (B "<id3v2-tag " ++ a ++ B " - " ++ t ++ B " (" ++ show P p ++ B " bytes padding)>").
Proof.
  intros F. destruct (first_named_ok e p fs (B "artist-frame") F (or_introl eq_refl)) as (a & E1 & H1).
  destruct (first_named_ok e p fs (B "title-frame") F (or_intror eq_refl)) as (t & E2 & H2).
  exists a, t. split; [exact H1|]. split; [exact H2|]. unfold display. rewrite E1. cbn [gbind]. rewrite E2. cbn [gbind]. reflexivity.
Qed.

Lemma read_full G z passes cwd fs pth x : read_tagset_scm G z passes cwd fs pth = GOk x -> exists tags, x = slist tags /\
  Forall (fun y => exists e frames n v u, y = slist [SObj CTag [e; slist frames; SInt n]; v; u] /\ (0 <= n)%Z /\ Forall full_frame frames) tags.
Proof.
  unfold read_tagset_scm. intros E. apply gbind_ok in E. destruct E as (p & _ & E).
  destruct (file_data cwd fs p); [|discriminate]. destruct (fst _) as [ts|er|u|]; try discriminate.
  unfold as_scribbu, gcatch in E.
  destruct (gmap (from_tag G z) ts) as [xs|er|er|u|] eqn:EM; cbn [gbind] in E; try discriminate.
  injection E as <-. exists xs. split; [reflexivity|]. eapply gmap_full; [|exact EM]. intros. eapply from_tag_full; eauto.
Qed.

Lemma text_str G b e1 e2 m x : (let! s := glift (to_string (g_ic G) b e1 e2 m) in from_stringn G s) = GOk x -> exists t, x = SStr t.
Proof. intros E. apply gbind_ok in E. destruct E as (s & _ & E). eapply from_stringn_str; eauto. Qed.
Lemma v1_prints P G t x : from_v1 G t = GOk x -> exists title artist rest, x = SObj CV1 (SStr title :: SStr artist :: rest) /\
  display P x = GOk (B "<id3v1-tag " ++ artist ++ B " - " ++ title ++ B ">").
Proof.
  unfold from_v1. intros E. apply gbind_ok in E. destruct E as (x0 & E0 & E). apply gbind_ok in E. destruct E as (x1 & E1 & E).
  apply text_str in E0. destruct E0 as (ti & ->). apply text_str in E1. destruct E1 as (ar & ->).
  do 4 (apply gbind_ok in E; destruct E as (? & _ & E)).
  destruct (M_Id3v1.v_extended t).
  - do 6 (apply gbind_ok in E; destruct E as (? & _ & E)). injection E as <-. eexists _, _, _. split; reflexivity.
  - injection E as <-. eexists _, _, _. split; reflexivity.
Qed.
