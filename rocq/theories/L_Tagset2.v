(** * Lemmas: sizes and writing of settled tags; adjusting paddings. *)
From Verif Require Import Base M_Ints M_Unsync M_Stream M_Payload M_Frame M_Tag22 M_Tag23 M_Tag24 M_Read M_Fs M_Tagset
  S_Ints S_Stream S_Tag S_Tag23 S_Tag24 S_Tagset
  L_Ints L_Frame L_Tag23 L_Tag23b L_Tag23c L_Tag23d L_Tag23e L_Tag22 L_Tag24 L_Tag24b L_Tagset.

Definition base_size (t : anytag) (u : bool) : N :=
  match t with
  | A22 t => sum_len (map (cached22 u) (t2_frames t))
  | A23 t => ext_len u (t3_ext t) + sum_len (map (cached u) (t3_frames t))
  | A24 t => bit_if (t4_foot t) 10 + match t4_ext t with Some x => y_size x | None => 0 end
             + sum_len (map (cached u) (t4_frames t))
  end.

Lemma base_set t p u : base_size (set_pad t p) u = base_size t u.
Proof. now destruct t as [[]|[]|[]]. Qed.
Lemma mult_set t p : mult (set_pad t p) = mult t.
Proof. now destruct t as [[]|[]|[]]. Qed.
Lemma clean_set t p : all_clean (set_pad t p) <-> all_clean t.
Proof. now destruct t as [[]|[]|[]]. Qed.

Lemma size_clean z t u : sound_tag t -> all_clean t ->
  any_size z t u = Ok (base_size t u + mult t * any_padding t, t).
Proof.
  destruct t as [t|t|t]; cbn [sound_tag all_clean any_size base_size mult any_padding]; intros Hs Hc.
  - unfold size22. rewrite map_refresh_clean by exact Hc. cbn [bind]. destruct t as [f1 f2 f3 f4]. cbn [t2_unsync t2_comp t2_pad t2_frames].
    do 2 f_equal. lia.
  - destruct Hc as [Hc Hx]. unfold size23. rewrite prep_plain by exact Hs. rewrite fresh_ext_fresh by exact Hx.
    cbn [bind t3_unsync t3_exp t3_ext t3_pad t3_frames]. rewrite refresh_all_clean by exact Hc. cbn [bind].
    fold (ext_len u (t3_ext t)). destruct t as [f1 f2 a f3 f4]. cbn [t3_unsync t3_exp t3_ext t3_pad t3_frames]. do 2 f_equal.
    clear. lia.
  - unfold size24. rewrite refresh_all_clean by exact Hc. cbn [bind]. destruct t as [f1 f2 f3 f4 f5 f6].
    cbn [t4_unsync t4_exp t4_foot t4_ext t4_pad t4_frames]. do 2 f_equal. lia.
Qed.

Lemma size_base z t u n t1 : sound_tag t -> any_size z t u = Ok (n, t1) -> n = base_size t1 u + mult t1 * any_padding t1.
Proof.
  destruct t as [t|t|t]; cbn [sound_tag any_size]; intros Hs H;
    apply bind_ok in H as ([n' t'] & Hz & H); apply Ok_inj in H; injection H as <- <-; cbn [base_size mult any_padding].
  - apply size22_inv in Hz as (_ & _ & _ & _ & E). lia.
  - apply size23_inv in Hz as (_ & _ & _ & _ & _ & E & _). fold (ext_len u (t3_ext t')) in E. lia.
  - apply size24_inv in Hz as (_ & _ & E1 & E2 & E3 & _ & E). rewrite E1, E2, E3. lia.
Qed.

(** Writing. *)
Lemma write_clean z t u : sound_tag t -> all_clean t ->
  let n := wrap64 (base_size t u + mult t * any_padding t) in
  (n < 2 ^ 28 -> exists h rest, any_write z t u = Ok (h ++ rest, t) /\
     (exists v f, tag_header v 0 f n = Ok h) /\
     len rest = base_size t u + any_padding t /\
     (simple_tag t -> exists fr, rest = fr ++ repeatN 0 (any_padding t) /\ len fr = base_size t u)) /\
  (2 ^ 28 <= n -> exists e, any_write z t u = Throw e).
Proof.
  intros Hs Hc n. pose proof (size_clean z t u Hs Hc) as Hz. split; intros Hn.
  - destruct (sync_safe_roundtrip_l n Hn) as (b0 & b1 & b2 & b3 & E & _).
    destruct t as [t|t|t]; cbn [sound_tag all_clean any_size any_padding mult simple_tag] in *.
    + destruct (size22 t u) as [[cb t1]| | |] eqn:E2; try discriminate. cbn [bind] in Hz. apply Ok_inj in Hz. injection Hz as Ecb ->. assert (En : wrap64 cb = n) by (unfold n; now rewrite Ecb).
      cbn [any_write]. rewrite E2. cbn [bind]. rewrite En. unfold tag_header at 1. rewrite E. cbn [bind].
      rewrite map_refresh_clean by exact Hc. cbn [bind].
      eexists _, (concat (map (cached22 u) (t2_frames t)) ++ repeatN 0 (t2_pad t)).
      split; [destruct t; reflexivity|]. split; [eexists _, _; unfold tag_header; rewrite E; reflexivity|].
      split; [rewrite len_app, len_repeatN, <- sum_len_concat; reflexivity|].
      intros _. eexists. split; [reflexivity|]. now rewrite <- sum_len_concat.
    + destruct (size23 z t u) as [[cb t1]| | |] eqn:E2; try discriminate. cbn [bind] in Hz. apply Ok_inj in Hz. injection Hz as Ecb ->. assert (En : wrap64 cb = n) by (unfold n; now rewrite Ecb).
      cbn [any_write]. rewrite E2. cbn [bind]. rewrite En. unfold tag_header at 1. rewrite E. cbn [bind].
      destruct Hc as [Hc Hx]. rewrite prep_plain by exact Hs. rewrite fresh_ext_fresh by exact Hx.
      cbn [bind t3_unsync t3_exp t3_ext t3_pad t3_frames]. rewrite map_refresh_clean by exact Hc. cbn [bind].
      pose proof (plain_written u u (t3_ext t) Hs Hx) as Hw.
      eexists _, (match t3_ext t with Some x => ext_written23 u x | None => [] end ++
                  concat (map (cached u) (t3_frames t)) ++ repeatN 0 (t3_pad t)).
      split; [destruct t; reflexivity|]. split; [eexists _, _; unfold tag_header; rewrite E; reflexivity|].
      split; [rewrite !len_app, len_repeatN, Hw, <- sum_len_concat; cbn [base_size]; clear; lia|].
      intros _. eexists. split; [apply app_assoc|]. rewrite len_app, Hw, <- sum_len_concat. reflexivity.
    + destruct (size24 z t u) as [[cb t1]| | |] eqn:E2; try discriminate. cbn [bind] in Hz. apply Ok_inj in Hz. injection Hz as Ecb ->. assert (En : wrap64 cb = n) by (unfold n; now rewrite Ecb).
      cbn [any_write]. rewrite E2. cbn [bind]. rewrite En. unfold tag_header at 1. rewrite E. cbn [bind].
      assert (HX : exists x, match t4_ext t with Some y => ext_wire24 y | None => Ok [] end = Ok x).
      { destruct (t4_ext t) as [[sz up crc restr]|]; [|eauto]. destruct Hs as (H1 & H2 & H3). cbn in H1, H2, H3. subst.
        destruct up; eexists; reflexivity. }
      destruct HX as (x & Hx). rewrite Hx. cbn [bind]. rewrite map_refresh_clean by exact Hc. cbn [bind].
      assert (Hxl : len x = match t4_ext t with Some y => y_size y | None => 0 end).
      { apply (x_len t x Hs). destruct (t4_ext t); [exact Hx|]. apply Ok_inj in Hx. now symmetry. }
      assert (HF : exists ft, (if t4_foot t then tag_footer (flags24 t) n else Ok []) = Ok ft /\ len ft = bit_if (t4_foot t) 10).
      { destruct (t4_foot t); [|exists []; split; reflexivity]. unfold tag_footer. rewrite E. eexists. split; reflexivity. }
      destruct HF as (ft & Hft & Hfl). rewrite Hft. cbn [bind].
      eexists _, (x ++ concat (map (cached u) (t4_frames t)) ++ repeatN 0 (t4_pad t) ++ ft).
      split; [destruct t; reflexivity|]. split; [eexists _, _; unfold tag_header; rewrite E; reflexivity|].
      split; [rewrite !len_app, len_repeatN, Hxl, Hfl; cbn [base_size]; rewrite <- sum_len_concat; lia|tauto].
  - destruct t as [t|t|t]; cbn [sound_tag all_clean any_size any_padding mult] in *;
      [destruct (size22 t u) as [[cb t1]| | |] eqn:E2|destruct (size23 z t u) as [[cb t1]| | |] eqn:E2
      |destruct (size24 z t u) as [[cb t1]| | |] eqn:E2]; try discriminate; cbn [bind] in Hz; apply Ok_inj in Hz;
      injection Hz as Ecb ->; assert (En : wrap64 cb = n) by (unfold n; now rewrite Ecb);
      cbn [any_write]; rewrite E2; cbn [bind]; rewrite En; unfold tag_header;
      rewrite ssfu_throw by exact Hn; cbn [bind]; eauto.
Qed.

(** Writing a tag is writing the tag that taking its size leaves. *)
Lemma write_probed z t0 u n t1 : sound_tag t0 -> any_size z t0 u = Ok (n, t1) -> any_write z t0 u = any_write z t1 u.
Proof.
  intros Hs H. destruct (size_same z t0 u n t1 Hs H) as [Hsame Hcl].
  pose proof (size_clean z t1 u (sound_same _ _ Hsame Hs) Hcl) as H1.
  rewrite <- (size_base z t0 u n t1 Hs H) in H1. pose proof (flags_same _ _ Hsame) as HF.
  destruct t0 as [t0|t0|t0], t1 as [t1|t1|t1]; try (elim Hsame; fail); cbn [any_size any_write] in *.
  - apply bind_ok in H as ([n' t'] & Hz & H). apply Ok_inj in H. injection H as -> ->.
    apply bind_ok in H1 as ([n' t'] & Hz1 & H1). apply Ok_inj in H1. injection H1 as -> ->.
    rewrite Hz, Hz1, HF. reflexivity.
  - apply bind_ok in H as ([n' t'] & Hz & H). apply Ok_inj in H. injection H as -> ->.
    apply bind_ok in H1 as ([n' t'] & Hz1 & H1). apply Ok_inj in H1. injection H1 as -> ->.
    rewrite Hz, Hz1, HF. reflexivity.
  - apply bind_ok in H as ([n' t'] & Hz & H). apply Ok_inj in H. injection H as -> ->.
    apply bind_ok in H1 as ([n' t'] & Hz1 & H1). apply Ok_inj in H1. injection H1 as -> ->.
    rewrite Hz, Hz1, HF. reflexivity.
Qed.

(** ** Settled tags *)
Definition u_of (z : zlib) (m : apply_unsync) (t : anytag) : bool :=
  match compute_apply_unsync z m t with Ok (u, _) => u | _ => false end.
Definition Settled z m t := settled z m (u_of z m t) t.
Definition full_size z m t := base_size t (u_of z m t) + mult t * any_padding t.

Lemma settled_u z m u t : settled z m u t -> u_of z m t = u /\ forall p, u_of z m (set_pad t p) = u.
Proof.
  intros (_ & _ & H). split.
  - unfold u_of. rewrite <- (set_pad_same t) at 1. now rewrite H.
  - intros p. unfold u_of. now rewrite H.
Qed.
Lemma settled_Settled z m u t : settled z m u t -> Settled z m t.
Proof. intros H. unfold Settled. destruct (settled_u _ _ _ _ H) as [-> _]. exact H. Qed.
Lemma Settled_set z m t p : Settled z m t -> Settled z m (set_pad t p).
Proof.
  intros H. unfold Settled. destruct (settled_u _ _ _ _ H) as [_ E]. rewrite E.
  destruct H as (H1 & H2 & H3). split; [now apply sound_set|]. split; [now apply clean_set|].
  intros q. rewrite !set_pad_set. apply H3.
Qed.
Lemma Settled_compute z m t : Settled z m t -> compute_apply_unsync z m t = Ok (u_of z m t, t).
Proof. intros (_ & _ & H). specialize (H (any_padding t)). now rewrite set_pad_same in H. Qed.
Lemma Settled_probe z m t : Settled z m t -> probe z m t = Ok (full_size z m t, t).
Proof.
  intros H. unfold probe. rewrite Settled_compute by exact H. cbn [bind]. apply size_clean; apply H.
Qed.
Lemma full_size_set z m t p : Settled z m t -> full_size z m (set_pad t p) + mult t * any_padding t = full_size z m t + mult t * p.
Proof.
  intros H. unfold full_size. destruct (settled_u _ _ _ _ H) as [_ E]. rewrite E, base_set, mult_set, pad_set.
  rewrite <- E with (p := p). destruct (settled_u _ _ _ _ H) as [E1 E2]. rewrite E2. lia.
Qed.
Lemma probe_Settled z m t n t1 : sound_tag t -> probe z m t = Ok (n, t1) ->
  Settled z m t1 /\ n = full_size z m t1 /\ same_but_caches t t1 /\ emit z m t = emit z m t1.
Proof.
  intros Hs H. destruct (probe_settled z m t n t1 Hs H) as (u & Hu & Hsame & t0 & Hc & H0 & Hz).
  pose proof (settled_Settled _ _ _ _ Hu) as HS. split; [exact HS|].
  destruct (settled_u _ _ _ _ Hu) as [Eu _]. unfold full_size. rewrite Eu.
  split; [apply (size_base z t0 u n t1); [now apply (sound_same t)|exact Hz]|]. split; [exact Hsame|].
  unfold emit. rewrite Hc. cbn [bind]. rewrite Settled_compute by exact HS. cbn [bind]. rewrite Eu.
  apply (write_probed z t0 u n t1); [now apply (sound_same t)|exact Hz].
Qed.

(** ** Lists of tags *)
Definition total_size z m ts := fold_right (fun t n => full_size z m t + 10 + n) 0 ts.

Lemma sizes_stable z m ts : Forall (Settled z m) ts -> sizes z m ts = Ok (total_size z m ts, total_padding ts, ts).
Proof.
  induction 1 as [|t r Ht _ IH]; [reflexivity|]. cbn [sizes]. rewrite Settled_probe by exact Ht. cbn [bind].
  rewrite IH. reflexivity.
Qed.
Lemma sizes_settled z m ts : Forall sound_tag ts -> forall n p ts1, sizes z m ts = Ok (n, p, ts1) ->
  Forall (Settled z m) ts1 /\ n = total_size z m ts1 /\ p = total_padding ts1 /\
  Forall2 same_but_caches ts ts1 /\ fst (emit_all z m ts) = fst (emit_all z m ts1) /\
  (forall r, snd (emit_all z m ts1) = Ok r -> snd (emit_all z m ts) = Ok r).
Proof.
  induction 1 as [|t r Ht _ IH]; intros n p ts1 H; cbn [sizes] in H.
  - apply Ok_inj in H. injection H as <- <- <-. repeat split; auto.
  - apply bind_ok in H as ([k t1] & Hp & H). apply bind_ok in H as ([[n' p'] r1] & Hr & H).
    apply Ok_inj in H. injection H as <- <- <-.
    destruct (probe_Settled z m t k t1 Ht Hp) as (S1 & E1 & S2 & E2).
    destruct (IH _ _ _ Hr) as (R1 & R2 & R3 & R4 & R5 & R6).
    split; [now constructor|]. split; [cbn [total_size fold_right]; unfold total_size in R2; lia|].
    split; [cbn [total_padding fold_right]; unfold total_padding in R3; lia|]. split; [now constructor|].
    cbn [emit_all]. rewrite E2. destruct (emit z m t1) as [[b t2]| | |]; [|split; [reflexivity|auto]..].
    destruct (emit_all z m r) as [w o], (emit_all z m r1) as [w1 o1]. cbn [fst snd] in *. subst w1.
    split; [reflexivity|]. intros x Hx. apply bind_ok in Hx as (y & Hy & Hx). rewrite (R6 y Hy). exact Hx.
Qed.

Lemma emit_settled z m t : Settled z m t ->
  let n := wrap64 (full_size z m t) in
  (n < 2 ^ 28 -> exists h rest, emit z m t = Ok (h ++ rest, t) /\ (exists v f, tag_header v 0 f n = Ok h) /\
     len rest + (mult t - 1) * any_padding t = full_size z m t /\
     (simple_tag t -> exists fr, rest = fr ++ repeatN 0 (any_padding t) /\ len fr = base_size t (u_of z m t))) /\
  (2 ^ 28 <= n -> exists e, emit z m t = Throw e).
Proof.
  intros H n. unfold emit. rewrite Settled_compute by exact H. cbn [bind].
  destruct (write_clean z t (u_of z m t)) as [W1 W2]; [apply H..|]. fold (full_size z m t) in W1, W2. fold n in W1, W2.
  split; [|exact W2]. intros Hn. destruct (W1 Hn) as (h & rest & E1 & E2 & E3 & E4). exists h, rest.
  split; [exact E1|]. split; [exact E2|]. split; [|exact E4]. unfold full_size. rewrite E3.
  assert (mult t = 1 \/ mult t = 2) as [-> | ->] by (destruct t; cbn; auto); lia.
Qed.

Lemma header_len v r f n h : tag_header v r f n = Ok h -> len h = 10.
Proof. intros H. apply tag_header_inv in H as (z0 & z1 & z2 & z3 & -> & _). reflexivity. Qed.

(** All tags small enough for their headers can be written, and take up no more
    than their sizes. *)
Lemma emit_all_settled z m ts : Forall (Settled z m) ts -> total_size z m ts < 2 ^ 28 ->
  exists w, emit_all z m ts = (w, Ok ts) /\ len w <= total_size z m ts /\
    (Forall simple_tag ts -> len w = total_size z m ts).
Proof.
  induction 1 as [|t r Ht Hr IH]; intros HT.
  - exists []. repeat split; reflexivity || lia.
  - cbn [total_size fold_right] in HT. fold (total_size z m r) in HT.
    destruct IH as (w & Ew & Lw & Lw2); [unfold total_size in *; lia|].
    destruct (emit_settled z m t Ht) as [E _].
    assert (Hw : wrap64 (full_size z m t) = full_size z m t).
    { unfold wrap64. apply N.mod_small. apply N.lt_trans with (2 ^ 28); [unfold total_size in *; lia|reflexivity]. }
    cbv zeta in E. rewrite Hw in E. destruct E as (h & rest & E1 & (v & f & E2) & E3 & _); [unfold total_size in *; lia|].
    exists ((h ++ rest) ++ w). cbn [emit_all]. rewrite E1, Ew. cbn [bind]. split; [reflexivity|].
    pose proof (header_len _ _ _ _ _ E2) as Hh. cbn [total_size fold_right]. fold (total_size z m r).
    assert (Hle : len rest <= full_size z m t) by (rewrite <- E3; apply N.le_add_r).
    rewrite !len_app. split; [unfold total_size in *; lia|]. intros HF. apply Forall_cons_iff in HF as [F1 F2].
    assert (mult t = 1) as Hm by (destruct t; [reflexivity|reflexivity|elim F1]). rewrite Hm, N.sub_diag, N.mul_0_l, N.add_0_r in E3.
    specialize (Lw2 F2). unfold total_size in *. lia.
Qed.

(** ** Adjusting *)
Lemma adjust_rest_neg a ts : (a < 0)%Z -> 
  (Forall (fun t => (- a <= Z.of_N (any_padding t) < 2 ^ 63)%Z) ts ->
   adjust_rest a ts = (map (fun t => set_pad t (any_padding t - Z.to_N (- a))) ts, Ok tt)) /\
  (Exists (fun t => (Z.of_N (any_padding t) < - a)%Z) ts -> snd (adjust_rest a ts) = Throw NotEnoughPadding).
Proof.
  intros Ha. induction ts as [|t r IH].
  - split; [reflexivity|]. intros H. inversion H.
  - destruct IH as [IH1 IH2]. cbn [adjust_rest]. apply Z.ltb_lt in Ha as Ha'. rewrite Ha'. cbn [andb]. split.
    + intros H. apply Forall_cons_iff in H as [[L1 L2] Hr]. destruct (Z.ltb_spec (Z.of_N (any_padding t)) (- a)); [lia|].
      rewrite IH1 by exact Hr. cbn [map]. do 3 f_equal. unfold add_signed.
      rewrite Z.mod_small by lia. lia.
    + intros H. destruct (Z.ltb_spec (Z.of_N (any_padding t)) (- a)) as [L|L]; [reflexivity|].
      inversion H as [? ? F|? ? F]; subst; [lia|]. destruct (adjust_rest a r) as [r' o]. cbn [snd] in *. auto.
Qed.
Lemma adjust_rest_pos a ts : (0 <= a < 2 ^ 63)%Z -> Forall (fun t => any_padding t < 2 ^ 63) ts ->
  adjust_rest a ts = (map (fun t => set_pad t (any_padding t + Z.to_N a)) ts, Ok tt).
Proof.
  intros Ha. induction 1 as [|t r Ht _ IH]; [reflexivity|]. cbn [adjust_rest].
  destruct (Z.ltb_spec a 0); [lia|]. cbn [andb]. rewrite IH. cbn [map]. do 3 f_equal.
  unfold add_signed. rewrite Z.mod_small by lia. lia.
Qed.

Lemma to_signed_sub x y : x < 2 ^ 63 -> y < 2 ^ 63 ->
  to_signed (wrap64 (x + 2 ^ 64 - wrap64 y)) = (Z.of_N x - Z.of_N y)%Z.
Proof.
  intros Hx Hy. unfold wrap64. rewrite (N.mod_small y) by lia. unfold to_signed.
  change (2 ^ 64) with 18446744073709551616 in *. change (2 ^ 63) with 9223372036854775808 in *.
  destruct (N.le_gt_cases y x) as [L|L].
  - replace (x + 18446744073709551616 - y) with ((x - y) + 1 * 18446744073709551616) by lia.
    rewrite N.mod_add by lia. rewrite N.mod_small by lia. destruct (N.ltb_spec (x - y) 9223372036854775808); lia.
  - rewrite N.mod_small by lia. destruct (N.ltb_spec (x + 18446744073709551616 - y) 9223372036854775808); [lia|].
    change (2 ^ 64)%Z with 18446744073709551616%Z. lia.
Qed.
